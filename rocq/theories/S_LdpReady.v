(** What opening a DRX or DRX8 file should do, in terms of the bytes in it. *)
From Coq Require Import List ZArith Bool.
From Verif Require Import LibBytes S_Drx.
Import ListNotations.
Open Scope Z_scope.

(** The sync word is at byte [i]. *)
Definition sync_at (l : list Z) (i : Z) : Prop := slice i 4 l = [222; 192; 222; 92].

(** [junk] is not data: no sync word starts in it, even one that runs into what follows. *)
Definition no_sync (junk rest : list Z) : Prop := forall i, 0 <= i < zlen junk -> ~ sync_at (junk ++ rest) i.

(** A frame the data may begin with: not decimated by zero, after 1980. *)
Definition starts_data (r : recorded) : Prop := r_dec r <> 0 /\ 61849368000000000 < r_tag r.

(** The time of a frame in samples at 196 MHz. *)
Definition sample_time (r : recorded) : Z := r_tag r - r_toff r.

(** The number of frames looked ahead to at [mb] MiB: the first frame boundary at or after that size. *)
Definition ahead (size mb : Z) : Z := (mb * 1048576 - 1) / size + 1.
