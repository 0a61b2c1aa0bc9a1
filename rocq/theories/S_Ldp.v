(** What reading a DRX recording should return, stated on the frames in the file. *)
From Coq Require Import List ZArith Bool.
From Verif Require Import M_Ldp.
Import ListNotations.
Open Scope Z_scope.

(** The frames in the file. *)
Definition recorded (file : list slot) : list drx_frame :=
  flat_map (fun s => match s with SFrame f => [f] | _ => [] end) file.

(** Values in the order of their first appearance. *)
Fixpoint first_seen (l : list Z) : list Z :=
  match l with [] => [] | x :: r => x :: filter (fun y => negb (y =? x)) (first_seen r) end.

(** The time tag of the [j]-th set of the output. *)
Definition set_time (t0 skip : Z) (j : nat) : Z := t0 + Z.of_nat j * skip.

(** The samples of row [a] (0..3) at time tag [t]: those of the frame in the file, zeros when there is none. *)
Definition is_stand (a : nat) (f : drx_frame) : bool := match stand f with Some b => Nat.eqb a b | None => false end.
Definition block (file : list slot) (L : nat) (t : Z) (a : nat) : list num :=
  match find (fun f => (dx_tt f =? t) && is_stand a f) (recorded file) with
  | Some f => dx_data f
  | None => repeat (Fin 0) L
  end.

(** A recording: the times of the sets in the file are t0 + g*skip for the numbers [g] of [grid]. *)
Record recording (file : list slot) (t0 skip : Z) (grid : list nat) (L : nat) : Prop := mkRec {
  (** time starts after 1980, goes forward, and starts with the first set *)
  rc_start : drx_floor < t0 /\ 0 < skip;
  rc_grid : nth 0 grid 1%nat = 0%nat /\ forall i, (S i < length grid)%nat -> (nth i grid 0 < nth (S i) grid 0)%nat;
  (** times appear in the file for the first time in order; later frames of a time may be late *)
  rc_order : first_seen (map dx_tt (recorded file)) = map (set_time t0 skip) grid;
  (** frames hold L finite samples *)
  rc_data : forall f, In f (recorded file) -> length (dx_data f) = L /\ forall x, In x (dx_data f) -> exists z, x = Fin z;
  (** an incomplete frame can only be the last thing in the file *)
  rc_tail : forall l r, file = l ++ STail :: r -> r = []
}.

(** No frame is later than the buffer of [nseg] times can wait. *)
Definition in_window (nseg : nat) (file : list slot) : Prop :=
  forall p f q, recorded file = p ++ f :: q ->
    (length (filter (fun t => (dx_tt f <=? t)%Z) (first_seen (map dx_tt p))) < nseg)%nat.

(** Each frame has an expected identifier and is there once. *)
Definition ids_once (possible : list (list Z)) (file : list slot) : Prop :=
  (forall f, In f (recorded file) -> In (drx_id_tuple (dx_id f)) possible) /\
  NoDup (map (fun f => (dx_tt f, drx_id_tuple (dx_id f))) (recorded file)).

(** Sets missing altogether: only if the reader can fill them.  That takes a gap below the limit, more
    than nseg + k sets after it, tuning 1 polarisation X in the file, and a good frame in
    every k successive places ([k] frames per set). *)
Definition gaps_fillable (possible : list (list Z)) (nseg k : nat) (autofill : Z) (grid : list nat) (file : list slot) : Prop :=
  forall i, (S i < length grid)%nat -> nth (S i) grid 0%nat <> S (nth i grid 0%nat) ->
    Z.of_nat (nth (S i) grid 0 - nth i grid 0 - 1)%nat < autofill /\
    (i + nseg + k < length grid)%nat /\
    (exists b, In [b; 1; 0] possible) /\
    (forall l m r, file = l ++ m ++ r -> length m = k -> exists f, In (SFrame f) m).

(** The outputs of successive reads of [ns] sets when [e] sets have been returned: the next sets in time order,
    zeros behind the last one, and EOFError when there are none left. *)
Inductive in_order (file : list slot) (t0 skip toff : Z) (L total : nat) :
  nat -> list nat -> list (res (nat * option Z * list (list (list num)))) -> Prop :=
| io_nil : forall e, in_order file t0 skip toff L total e [] []
| io_read : forall e n ns m rows outs, (e < total)%nat -> m = Nat.min n (total - e) ->
    (forall a, (a < 4)%nat -> array_row (repeat (Fin 0) L) n (nth a rows []) =
       map (fun j => block file L (set_time t0 skip (e + j)) a) (seq 0 m) ++ repeat (repeat (Fin 0) L) (n - m)) ->
    in_order file t0 skip toff L total (e + m) ns outs ->
    in_order file t0 skip toff L total e (n :: ns) (Ok (m, Some (set_time t0 skip e - toff), rows) :: outs)
| io_end : forall e n ns, (total <= e)%nat -> in_order file t0 skip toff L total e (n :: ns) [Raise EOFError].
