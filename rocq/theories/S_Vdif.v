(** The VDIF frame format and the vocabulary of the VDIF properties,
    independent of the reader and the writer. *)
From Coq Require Import List ZArith Bool QArith.
From Verif Require Import LibBytes.
Import ListNotations.
Open Scope Z_scope.

(** A recorded frame.  [r_levels] are the sample codes 0 .. 2^bits-1 in
    recorded order: time, then channel, then real/imaginary part. *)
Record vrec := mkVrec {
  r_legacy : bool; r_invalid : bool; r_secs : Z; r_epoch : Z; r_frame : Z;
  r_version : Z; r_lognchan : Z; r_station : Z; r_thread : Z; r_bits : Z; r_complex : bool;
  r_ext : Z * Z * Z * Z; r_levels : list Z
}.

Definition b2z (b : bool) : Z := if b then 1 else 0.

(** Sum of l_i * base^i. *)
Fixpoint digits (base : Z) (l : list Z) : Z :=
  match l with [] => 0 | x :: r => x + base * digits base r end.

(** The samples fill the payload from its least significant bit upward. *)
Definition payload_len (bits n : Z) : Z := n * bits / 8.
Definition payload (bits : Z) (l : list Z) : list Z :=
  le (Z.to_nat (payload_len bits (zlen l))) (digits (2 ^ bits) l).

Definition head_len (r : vrec) : Z := if r_legacy r then 16 else 32.
Definition frame_len (r : vrec) : Z := head_len r + payload_len (r_bits r) (zlen (r_levels r)).

Definition vdif_head (r : vrec) : list (list Z) :=
  [le 4 (r_secs r + 2 ^ 30 * b2z (r_legacy r) + 2 ^ 31 * b2z (r_invalid r));
   le 4 (r_frame r + 2 ^ 24 * r_epoch r);
   le 4 (frame_len r / 8 + 2 ^ 24 * r_lognchan r + 2 ^ 29 * r_version r);
   le 4 (r_station r + 2 ^ 16 * r_thread r + 2 ^ 26 * (r_bits r - 1) + 2 ^ 31 * b2z (r_complex r))].
Definition vdif_ext (r : vrec) : list (list Z) :=
  let '(a, b, c, d) := r_ext r in if r_legacy r then [] else [le 4 a; le 4 b; le 4 c; le 4 d].
Definition vdif_bytes (r : vrec) : list Z :=
  concat (vdif_head r) ++ concat (vdif_ext r) ++ payload (r_bits r) (r_levels r).

Definition parts (r : vrec) : Z := if r_complex r then 2 else 1.

Definition ext_ok (r : vrec) : Prop :=
  let '(a, b, c, d) := r_ext r in
  0 <= a < 2 ^ 32 /\ 0 <= b < 2 ^ 32 /\ 0 <= c < 2 ^ 32 /\ 0 <= d < 2 ^ 32 /\
  (r_legacy r = true -> a = 0 /\ b = 0 /\ c = 0 /\ d = 0).

Definition vdif_ok (r : vrec) : Prop :=
  0 <= r_secs r < 2 ^ 30 /\ 0 <= r_epoch r < 2 ^ 6 /\ 0 <= r_frame r < 2 ^ 24 /\
  0 <= r_version r < 2 ^ 3 /\ 0 <= r_lognchan r < 2 ^ 5 /\ 0 <= r_station r < 2 ^ 16 /\
  0 <= r_thread r < 2 ^ 10 /\ In (r_bits r) [1; 2; 4; 8] /\ ext_ok r /\
  Forall (fun l => 0 <= l < 2 ^ r_bits r) (r_levels r) /\
  zlen (r_levels r) * r_bits r mod 64 = 0 /\         (* whole 8-byte units *)
  frame_len r < 2 ^ 27 /\                            (* fits the length field *)
  zlen (r_levels r) mod (parts r * 2 ^ r_lognchan r) = 0.   (* whole time samples *)

(** The recorded values grouped in complex numbers. *)
Fixpoint complex_of {V} (l : list V) : list (V * V) :=
  match l with a :: b :: r => (a, b) :: complex_of r | _ => [] end.

(** [rows] is [samples] (time-major, [nchan] channels) arranged by channel. *)
Definition by_channel {A} (nchan : Z) (samples : list A) (rows : list (list A)) : Prop :=
  zlen rows = nchan /\
  forall d c, 0 <= c < nchan ->
    zlen (znth [] c rows) = zlen samples / nchan /\
    forall t, 0 <= t < zlen samples / nchan -> znth d t (znth [] c rows) = znth d (t * nchan + c) samples.

(** What identifies a frame in a stream: thread, second, frame in second. *)
Definition key (r : vrec) : Z * Z * Z := (r_thread r, r_secs r, r_frame r).

(** A regular recording: [R] frames per second, threads [ts] in turn, [n]
    consecutive frame times starting with number [k0] (counted from second
    [s0]). *)
Definition regular (R s0 k0 : Z) (n : nat) (ts : list Z) (rs : list vrec) : Prop :=
  map key rs = flat_map (fun k => map (fun t => (t, s0 + k / R, k mod R)) ts) (zseq k0 n).
