(** Property theorems (generated from P_ConfigT.v by tools/gen_theorems.py). *)
From Coq Require Import List ZArith Bool Lia QArith.
From Verif Require Import M_Str M_Config S_Config P_Str P_Config P_ConfigT.
Import ListNotations.
Open Scope Z_scope.

(** After any session of programs (set, failed set, nested set_temp, exceptions), saves and writes of other
    processes, the pending changes are exactly the parameters whose value differs from the one at the last save (or
    when loaded), and the container wants to be saved iff there are any or the version changed.  The programs may
    not set() a parameter within a set_temp() block of the same parameter. *)
Theorem C36_pending_partial : forall es c d, fresh c -> Forall clean_event es ->
  let s := history es (mkS c d (current c)) in
  pending_exactly (s_base s) (s_cfg s) /\ (pch (s_cfg s) = true <-> due (s_cfg s)).
Proof. exact C36_pending_partial_proof. Qed.
Print Assumptions C36_pending_partial.

(** set(): an unknown name gives ValueError, another type than before gives TypeError unless the parameter is
    optional, and both change nothing; otherwise the parameter has the new value and the others are as before. *)
Theorem C36_set : forall n v c,
  (current c n = None -> set n v c = (Some ValueError, c)) /\
  (forall p, dget n (params c) = Some p -> same_type v (p_value p) = false -> p_opt p = false -> set n v c = (Some TypeError, c)) /\
  (forall p, dget n (params c) = Some p -> same_type v (p_value p) = true \/ p_opt p = true ->
     exists c', set n v c = (None, c') /\ current c' n = Some v /\ (forall m, m <> n -> current c' m = current c m) /\ vch c' = vch c /\ loaded c' = loaded c).
Proof. exact C36_set_proof. Qed.
Print Assumptions C36_set.

(** set_temp(): whatever the block does, and however it ends, afterwards the parameter has the value it had before;
    every other parameter is as the block left it.  Inside the block the parameter has the temporary value. *)
Theorem C36_temp_restores : forall n v p c, exists o c1,
  enter n v c = (o, c1) /\
  match o with
  | inl e => exec (Temp n v p) c = (Some e, c) /\ (e = ValueError \/ e = TypeError)
  | inr old => current c n = Some old /\ current c1 n = Some v /\ (forall m, m <> n -> current c1 m = current c m) /\ pend c1 = pend c /\ pch c1 = pch c /\
      let c' := snd (exec (Temp n v p) c) in
      current c' n = current c n /\ (forall m, m <> n -> current c' m = current (snd (exec p c1)) m) /\
      (fst (exec p c1) <> Some KeyError -> fst (exec (Temp n v p) c) = fst (exec p c1))
  end.
Proof. exact C36_temp_restores_proof. Qed.
Print Assumptions C36_temp_restores.

(** When the file is written.  In a state a session can reach, a save writes iff the configuration is not read-only
    and either the version is new, or there are pending changes and the file has not changed since it was loaded; it
    writes all current values, and afterwards nothing is pending.  When nothing is written the file stays as it is. *)
Theorem C36_save : forall ro now c d c' d', pch c = true <-> due c -> save ro now c d = (c', d') ->
  let moved := exists m t, d = Some (m, t) /\ loaded c < m in
  let writes := ro = false /\ (vch c = true \/ pend c <> [] /\ ~ moved) in
  (writes -> d' = Some (now, values c) /\ pend c' = [] /\ pch c' = false /\ vch c' = false) /\
  (~ writes -> d' = d) /\ params c' = params c /\ (ro = false -> pend c' = []) /\ (ro = true -> c' = c).
Proof. exact C36_save_proof. Qed.
Print Assumptions C36_save.

(** view(section).get(name) is the parameter of the section, else the parameter of that full name. *)
Theorem C36_view_get : forall sec n c,
  sub_get sec n c = match current c (dotted sec n), current c n with Some v, _ => inr v | None, Some v => inr v | None, None => inl ValueError end.
Proof. exact C36_view_get_proof. Qed.
Print Assumptions C36_view_get.

Example C36_pending_example : fresh ex_cfg /\ clean [] ex_prog /\
  pend (snd (exec ex_prog ex_cfg)) = [(nm 120, (VInt 20, VInt 31)); (nm 121, (VNone, VStr [49]))] /\
  pend (snd (exec (Seq ex_prog (Set_ (nm 120) (VInt 20))) ex_cfg)) = [(nm 121, (VNone, VStr [49]))].
Proof. exact C36_pending_example_proof. Qed.

Example C36_save_example : snd (save false 9 (snd (exec ex_prog ex_cfg)) (Some (5, []))) = Some (9, [(nm 120, VInt 31); (nm 121, VStr [49])]) /\
  snd (save false 9 (snd (exec ex_prog ex_cfg)) (Some (7, []))) = Some (7, []).
Proof. exact C36_save_example_proof. Qed.

(** set() inside set_temp() of the same parameter: the change is undone on exit but stays on the list of pending changes. *)
Theorem C36_set_within_temp_refuted : exists c p, fresh c /\
  let c' := snd (exec (Temp (nm 120) (VInt 30) p) c) in
  (forall n, current c' n = current c n) /\ pend c' = [(nm 120, (VInt 30, VInt 25))] /\ pch c' = true.
Proof. exact C36_set_within_temp_refuted_proof. Qed.
Print Assumptions C36_set_within_temp_refuted.

(** A KeyError raised by the block of a set_temp() leaves it as ValueError("Unknown parameter ..."). *)
Theorem C36_temp_keyerror_refuted : exists c n v, fst (exec (Raise KeyError) c) = Some KeyError /\ fst (exec (Temp n v (Raise KeyError)) c) = Some ValueError.
Proof. exact C36_temp_keyerror_refuted_proof. Qed.
Print Assumptions C36_temp_keyerror_refuted.

(** A second save of a session is always taken for a conflict: the time of the first one is not remembered. *)
Theorem C36_second_save_refuted : forall now1 now2, 5 < now1 -> exists c1 d1 c2,
  save false now1 (snd (set (nm 120) (VInt 30) ex_cfg)) (Some (5, [])) = (c1, d1) /\ d1 = Some (now1, [(nm 120, VInt 30); (nm 121, VNone)]) /\
  save false now2 (snd (set (nm 120) (VInt 40) c1)) d1 = (c2, d1) /\ pend c2 = [] /\ pch c2 = false /\ current c2 (nm 120) = Some (VInt 40).
Proof. exact C36_second_save_refuted_proof. Qed.
Print Assumptions C36_second_save_refuted.

(** With a new version the "abandoned" changes are written all the same, over what another process wrote. *)
Theorem C36_abandoned_written_refuted : exists c, flags c /\ vch c = true /\ pend c <> [] /\
  snd (save false 9 c (Some (7, [(nm 120, VInt 99)]))) = Some (9, [(nm 120, VInt 30); (nm 121, VNone)]).
Proof. exact C36_abandoned_written_refuted_proof. Qed.
Print Assumptions C36_abandoned_written_refuted.

(** view(section).set(name) does not fall back to the full name as get does: it raises ValueError. *)
Theorem C36_view_set_refuted : exists sec n v c, sub_get sec n c = inr v /\ sub_set sec n v c = (Some ValueError, c).
Proof. exact C36_view_set_refuted_proof. Qed.
Print Assumptions C36_view_set_refuted.
