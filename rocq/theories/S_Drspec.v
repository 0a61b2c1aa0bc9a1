(** The DR spectrometer frame format (version 1.7) and the vocabulary of C23,
    independent of the reader. *)
From Coq Require Import List ZArith Bool.
From Verif Require Import LibBytes.
Import ListNotations.
Open Scope Z_scope.

(** A recorded frame.  [q_spec0], [q_spec1]: for tuning 1 and 2, for each
    channel, the accumulated values (32-bit float patterns) of the products in the order of
    their format bits. *)
Record drs_rec := mkDrs {
  q_tag : Z; q_toff : Z; q_dec : Z; q_freq : list Z; q_fills : list Z; q_errors : list Z;
  q_beam : Z; q_format : Z; q_version : Z; q_flags : Z; q_nints : Z; q_sats : list Z;
  q_spec0 : list (list Z); q_spec1 : list (list Z)
}.
Definition q_nfreq (r : drs_rec) : Z := zlen (q_spec0 r).

(** Products: bit b of the format; 0 XX, 1 real XY, 2 imaginary XY, 3 YY, 4..7 Stokes I Q U V. *)
Definition products (fmt : Z) : list Z := filter (Z.testbit fmt) [0; 1; 2; 3; 4; 5; 6; 7].

Definition drs_head_chunks (r : drs_rec) : list (list Z) :=
  [le 4 3235823838 (* 0xC0DEC0DE *); le 8 (q_tag r); le 2 (q_toff r); le 2 (q_dec r)]
  ++ map (le 4) (q_freq r) ++ map (le 4) (q_fills r) ++ map (le 1) (q_errors r)
  ++ [le 1 (q_beam r); le 1 (q_format r); le 1 (q_version r); le 1 (q_flags r); le 4 (q_nfreq r); le 4 (q_nints r)]
  ++ map (le 4) (q_sats r) ++ [le 4 3977047308 (* 0xED0CED0C *)].
Definition drs_words (r : drs_rec) : list Z := concat (q_spec0 r) ++ concat (q_spec1 r).
Definition drs_bytes (r : drs_rec) : list Z := concat (drs_head_chunks r) ++ flat_map (le 4) (drs_words r).
Definition drs_len (r : drs_rec) : Z := 76 + 8 * zlen (products (q_format r)) * q_nfreq r.

Definition u32 (v : Z) : Prop := 0 <= v < 2 ^ 32.
Definition drs_ok (r : drs_rec) : Prop :=
  0 <= q_tag r < 2 ^ 64 /\ 0 <= q_toff r < 2 ^ 16 /\ 0 <= q_dec r < 2 ^ 16 /\
  zlen (q_freq r) = 2 /\ Forall u32 (q_freq r) /\ zlen (q_fills r) = 4 /\ Forall u32 (q_fills r) /\
  zlen (q_errors r) = 4 /\ Forall (fun v => 0 <= v < 256) (q_errors r) /\
  0 <= q_beam r < 256 /\ 0 <= q_format r < 256 /\ 0 <= q_version r < 256 /\ 0 <= q_flags r < 256 /\
  u32 (q_nfreq r) /\ u32 (q_nints r) /\ zlen (q_sats r) = 4 /\ Forall u32 (q_sats r) /\
  zlen (q_spec1 r) = q_nfreq r /\
  Forall (fun row => zlen row = zlen (products (q_format r)) /\ Forall u32 row) (q_spec0 r ++ q_spec1 r).

(** The combinations of products the spectrometer produces. *)
Definition drs_formats : list Z :=
  [1; 2; 4; 8;          (* one linear product *)
   9; 6; 15;            (* XX YY; XY; all linear *)
   16; 32; 64; 128;     (* one Stokes parameter *)
   144; 240].           (* I V; all Stokes *)

(** The number of samples behind product [b] of tuning [t] (0 or 1): fills of X, of Y, or the
    smaller of the two. *)
Definition fills_of (r : drs_rec) (t b : Z) : Z :=
  let x := znth 0 (2 * t) (q_fills r) in let y := znth 0 (2 * t + 1) (q_fills r) in
  if b =? 0 then x else if b =? 3 then y else Z.min x y.
