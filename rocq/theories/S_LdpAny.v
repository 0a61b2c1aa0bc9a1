(** What LWADataFile should find, in terms of the bytes of a file. *)
From Coq Require Import List ZArith Bool.
From Verif Require Import LibBytes S_Drx S_Drspec S_Cor S_LdpReady.
Import ListNotations.
Open Scope Z_scope.

(** A TBX header at byte [i]: the sync word and, in the header's places for them, a number of stands and of channels TBX has. *)
Definition tbx_at (data : list Z) (i : Z) : Prop :=
  sync_at data i /\ tbx_mode (be_val (slice (i + 16) 2 data)) (be_val (slice (i + 18) 2 data)).

(** Frames of [size] bytes from the first byte on, and no sync word between their beginnings in the first [n] bytes. *)
Definition no_stray (size n : Z) (data : list Z) : Prop := forall i, 0 <= i < n -> sync_at data i -> i mod size = 0.
