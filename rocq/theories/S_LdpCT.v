(** What reading a COR or TBX recording should return, stated on the frames in the file. *)
From Coq Require Import List ZArith Bool.
From Verif Require Import M_LdpCT.
Import ListNotations.
Open Scope Z_scope.

(** Values in the order of their first appearance. *)
Fixpoint first_seen (l : list Z) : list Z :=
  match l with [] => [] | x :: r => x :: filter (fun y => negb (y =? x)) (first_seen r) end.
(** The time tag of the [j]-th set of the output. *)
Definition set_time (t0 skip : Z) (j : nat) : Z := t0 + Z.of_nat j * skip.

Section Spec.
(** a kind of frame: its time tag, its identifier (COR: the two stands and the first channel; TBX: the first
    channel), its samples *)
Context {F : Type} (time : F -> Z) (ident : F -> list Z) (samples : F -> list num).

(** The frames in the file. *)
Definition recorded (file : list (cslot F)) : list F :=
  flat_map (fun s => match s with CFrame f => [f] | _ => [] end) file.

(** The samples of identifier [i] at time tag [t]: those of the frame in the file, zeros when there is none. *)
Definition block (file : list (cslot F)) (L : nat) (t : Z) (i : list Z) : list num :=
  match find (fun f => (time f =? t) && if list_eq_dec Z.eq_dec (ident f) i then true else false) (recorded file) with
  | Some f => samples f
  | None => repeat (Fin 0) L
  end.

(** A recording: the times of the sets in the file are t0 + g*skip for the numbers [g] of [grid]. *)
Record recording (file : list (cslot F)) (t0 skip : Z) (grid : list nat) (L : nat) : Prop := mkRec {
  (** time tags are positive and grow; the first set is number 0 *)
  rc_start : 0 < t0 /\ 0 < skip;
  rc_grid : nth 0 grid 1%nat = 0%nat /\ forall i, (S i < length grid)%nat -> (nth i grid 0 < nth (S i) grid 0)%nat;
  (** times appear in the file for the first time in order; later frames of a time may be late *)
  rc_order : first_seen (map time (recorded file)) = map (set_time t0 skip) grid;
  (** frames hold L finite samples *)
  rc_data : forall f, In f (recorded file) -> length (samples f) = L /\ forall x, In x (samples f) -> exists z, x = Fin z;
  (** an incomplete frame can only be the last thing in the file *)
  rc_tail : forall l r, file = l ++ CTail :: r -> r = []
}.

(** No frame is later than the buffer of [nseg] times can wait. *)
Definition in_window (nseg : nat) (file : list (cslot F)) : Prop :=
  forall p f q, recorded file = p ++ f :: q ->
    (length (filter (fun t => (time f <=? t)%Z) (first_seen (map time p))) < nseg)%nat.

(** Each frame has an expected identifier and is there once. *)
Definition ids_once (possible : list Z -> Prop) (file : list (cslot F)) : Prop :=
  (forall f, In f (recorded file) -> possible (ident f)) /\
  NoDup (map (fun f => (time f, ident f)) (recorded file)).

(** No more than [lim] successive places without a frame of the wanted kind. *)
Definition short_breaks (lim : Z) (file : list (cslot F)) : Prop :=
  forall l m r, file = l ++ m ++ r -> recorded m = [] -> Z.of_nat (length m) <= lim.

(** Sets missing altogether: only if the reader can fill them.  That takes steps of 8192, a gap below
    the limit, more than nseg + k sets after it, and a good frame in every k successive places ([k] frames per set). *)
Definition gaps_fillable (nseg k : nat) (skip autofill : Z) (grid : list nat) (file : list (cslot F)) : Prop :=
  forall i, (S i < length grid)%nat -> nth (S i) grid 0%nat <> S (nth i grid 0%nat) ->
    skip = 8192 /\
    Z.of_nat (nth (S i) grid 0 - nth i grid 0 - 1)%nat < autofill /\
    (i + nseg + k < length grid)%nat /\
    (forall l m r, file = l ++ m ++ r -> length m = k -> exists f, In (CFrame f) m).

(** The outputs of successive reads of [ns] sets when [e] sets have been returned: the next sets in time order and
    EOFError when there are none left. [rows] is the number of rows, [where_ i] the row of a possible identifier i; of the n
    places of each row in the array, the m read are given here (the rest keeps the zeros it was made with). *)
Inductive in_order (possible : list Z -> Prop) (rows : nat) (where_ : list Z -> nat) (file : list (cslot F)) (t0 skip : Z) (L total : nat) :
  nat -> list nat -> list (res (nat * option Z * list (list (list num)))) -> Prop :=
| io_nil : forall e, in_order possible rows where_ file t0 skip L total e [] []
| io_read : forall e n ns m rs outs, (e < total)%nat -> m = Nat.min n (total - e) ->
    length rs = rows ->
    (forall i, possible i -> nth (where_ i) rs [] = map (fun j => block file L (set_time t0 skip (e + j)) i) (seq 0 m)) ->
    in_order possible rows where_ file t0 skip L total (e + m) ns outs ->
    in_order possible rows where_ file t0 skip L total e (n :: ns) (Ok (m, Some (set_time t0 skip e), rs) :: outs)
| io_end : forall e n ns, (total <= e)%nat -> in_order possible rows where_ file t0 skip L total e (n :: ns) [Raise EOFError].
End Spec.

(** ** Where things are *)
(** The identifiers of [n] stands and the first channels [chans]: baselines (i, j), i <= j; channels *)
Definition cor_id (n : nat) (chans : list Z) (i : list Z) : Prop :=
  exists a b c, i = [a; b; c] /\ 1 <= a <= b /\ b <= Z.of_nat n /\ In c chans.
Definition tbx_id (chans : list Z) (i : list Z) : Prop := exists c, i = [c] /\ In c chans.
(** The number of the baseline (i, j), i <= j, among those of [n] stands, in the order (1,1), (1,2), ..., (1,n), (2,2), ... *)
Definition baseline_number (n i j : Z) : Z := (i - 1) * n - (i - 1) * (i - 2) / 2 + (j - i).
(** The position of a channel in the list. *)
Fixpoint position (c : Z) (l : list Z) : nat :=
  match l with [] => 0%nat | x :: r => if Z.eq_dec c x then 0%nat else S (position c r) end.
Definition cor_row (stands : nat) (chans : list Z) (i : list Z) : nat :=
  match i with
  | [a; b; c] => (Z.to_nat (baseline_number (Z.of_nat stands) a b) * length chans + position c chans)%nat
  | _ => 0%nat
  end.
Definition tbx_row (chans : list Z) (i : list Z) : nat :=
  match i with [c] => position c chans | _ => 0%nat end.
