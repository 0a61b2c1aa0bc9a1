(** Process histories for the COR and TBX readers: which cache states can occur
    (used in the statements of C18-C20 and C46). *)
From Coq Require Import List ZArith Bool.
From Verif Require Import M_Cor.
Open Scope Z_scope.

(** The cache after any sequence of reads, each from any file at any position. *)
Inductive cor_history : ccache -> Prop :=
| cor_start : cor_history cor_fresh
| cor_next : forall st f st' f' r, cor_history st -> 0 <= f_pos f -> bytes_ok (f_data f) ->
    read_cor st f = (st', f', r) -> cor_history st'.
Inductive tbx_history : tcache -> Prop :=
| tbx_start : tbx_history tbx_fresh
| tbx_next : forall st f st' f' r, tbx_history st -> 0 <= f_pos f -> bytes_ok (f_data f) ->
    read_tbx st f = (st', f', r) -> tbx_history st'.

(** Number of channels (COR) or frame bytes (TBX) the next read assumes. *)
Definition assumed_nchan (st : ccache) : Z := cc_nchan st.
Definition assumed_bytes (st : tcache) : Z :=
  let '(ns, nc) := tbx_dispatch (tc_nstand st) (tc_nchan st) in 28 + 2 * ns * nc.
