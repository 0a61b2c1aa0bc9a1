(** What a user expects of a frame buffer, stated without its internals.
    A history is seen only through the frames handed to append() and the frame
    sets that came out of get()/flush(). *)
From Coq Require Import List ZArith Bool Permutation Sorted.
From Verif Require Import M_Buffer M_BufferModes.
Import ListNotations.
Open Scope Z_scope.

Section Spec.
Context {F : Type} (stamp : F -> Z) (valid : F -> bool) (ident : F -> list Z).

(** All frames handed to append(), in order. *)
Fixpoint appended (os : list (@op F)) : list F :=
  match os with
  | [] => []
  | OAppend fs :: r => fs ++ appended r
  | _ :: r => appended r
  end.

(** Histories that only append and get; histories without reset. *)
Definition app_or_get (o : @op F) : Prop := match o with OAppend _ | OGet => True | _ => False end.
Definition no_reset (o : @op F) : Prop := match o with OReset => False | _ => True end.

(** Every frame of an earlier set is strictly older than every frame of a later one. *)
Definition before (l1 l2 : list F) : Prop := forall f g, In f l1 -> In g l2 -> stamp f < stamp g.
Definition strictly_increasing (outs : list (list F)) : Prop := StronglySorted before outs.

(** A non-empty set of frames sharing one timestamp. *)
Definition one_stamp (l : list F) : Prop := l <> [] /\ forall f g, In f l -> In g l -> stamp f = stamp g.

(** The timestamp of the last set that came out ([floor] when none has). *)
Definition last_stamp (floor : Z) (outs : list (list F)) : Z :=
  match last outs [] with [] => floor | f :: _ => stamp f end.

(** Frames of [A] stamped [t], in arrival order; timestamps of [A] newer than [d]. *)
Definition at_stamp (A : list F) (t : Z) : list F := filter (fun f => stamp f =? t) A.
Definition stamps_after (A : list F) (d : Z) : list Z :=
  nodup Z.eq_dec (map stamp (filter (fun f => d <? stamp f) A)).

(** One frame per expected identifier, no more and no less. *)
Definition one_per_id (expected : list (list Z)) (l : list F) : Prop :=
  Permutation (map ident l) expected.

Definition count_invalid (l : list F) : Z := Z.of_nat (length (filter (fun f => negb (valid f)) l)).
End Spec.

(** ** Well-formedness of what a buffer class provides *)
Record lawful {F} (M : ops F) (C : cfg) : Prop := mkLawful {
  lw_seg : (1 <= c_nseg C)%nat;
  lw_fom : forall t i, o_fom M (o_fill M t i) = o_fom M t;
  lw_valid : forall t i, o_valid M (o_fill M t i) = false;
  lw_mid : forall t i, In i (c_possible C) -> o_mid M (o_fill M t i) = i;
  lw_nodup : NoDup (c_possible C);
  lw_count : c_nframes C = length (c_possible C)
}.


(** ** The buffers a user can construct
    [built M C fl]: the class behaviour [M], configuration [C] and initial mark
    [fl] of a buffer built by one of the five constructors with at least one
    ring segment.  [built_distinct] adds that the configuration lists have no
    repeats and that DRX beams fit the 3-bit field. *)
Inductive built : forall F, ops F -> cfg -> Z -> Prop :=
| B_drx : forall beams tunes pols n re c,
    drx_cfg beams tunes pols n re = Ok c -> built drx_frame (drx_ops 0) c drx_floor
| B_drx8 : forall beams tunes pols n re c,
    drx_cfg beams tunes pols n re = Ok c -> built drx_frame (drx_ops 64) c drx_floor
| B_cor : forall chans n re c, (1 <= n)%nat ->
    cor_cfg chans n re = Ok c -> built cor_frame cor_ops c 0
| B_vdif : forall threads n re c, (1 <= n)%nat ->
    vdif_cfg threads n re = Ok c -> built vdif_frame vdif_ops c 0
| B_tbx : forall chans n re c, (1 <= n)%nat ->
    tbx_cfg chans n re = Ok c -> built tbx_frame tbx_ops c 0.

Inductive built_distinct : forall F, ops F -> cfg -> Z -> Prop :=
| D_drx : forall beams tunes pols n re c, NoDup beams -> NoDup tunes -> NoDup pols ->
    (forall b, In b beams -> 0 <= b < 8) ->
    drx_cfg beams tunes pols n re = Ok c -> built_distinct drx_frame (drx_ops 0) c drx_floor
| D_drx8 : forall beams tunes pols n re c, NoDup beams -> NoDup tunes -> NoDup pols ->
    (forall b, In b beams -> 0 <= b < 8) ->
    drx_cfg beams tunes pols n re = Ok c -> built_distinct drx_frame (drx_ops 64) c drx_floor
| D_cor : forall chans n re c, (1 <= n)%nat -> NoDup chans ->
    cor_cfg chans n re = Ok c -> built_distinct cor_frame cor_ops c 0
| D_vdif : forall threads n re c, (1 <= n)%nat -> NoDup threads ->
    vdif_cfg threads n re = Ok c -> built_distinct vdif_frame vdif_ops c 0
| D_tbx : forall chans n re c, (1 <= n)%nat -> NoDup chans ->
    tbx_cfg chans n re = Ok c -> built_distinct tbx_frame tbx_ops c 0.

(** The frame sets a history returned (or the exception it raised). *)
Definition outputs {F} (r : res (st F * list (list F))) : res (list (list F)) :=
  match r with Ok (_, o) => Ok o | Raise e => Raise e end.

(** State change "one more dropped, nothing else". *)
Definition one_more_dropped {F} (s s' : st F) : Prop :=
  s' = mkSt (s_buf s) (s_done s) (s_full s) (s_partial s) (s_dropped s + 1) (s_missing s).

(** All frames still buffered. *)
Definition still_buffered {F} (s : st F) : list F := concat (map snd (s_buf s)).

(** Rounds "append the frames of one timestamp, then get". *)
Definition rounds {F} (fss : list (list F)) : list (@op F) := flat_map (fun fs => [OAppend fs; OGet]) fss.

(** Alphabetical order of identifiers. *)
Fixpoint lex_lt (a b : list Z) : Prop :=
  match a, b with
  | x :: a', y :: b' => x < y \/ x = y /\ lex_lt a' b'
  | [], _ :: _ => True
  | _, [] => False
  end.
