(** The DRX / DRX8 frame formats (DP ICD) and the vocabulary of C12-C17, independent of the readers. *)
From Coq Require Import List ZArith Bool QArith.
From Verif Require Import LibBytes.
Import ListNotations.
Open Scope Z_scope.

(** A recorded frame: what the instrument stored. *)
Record recorded := mkRec {
  r_beam : Z; r_tune : Z; r_pol : Z;       (* identifier *)
  r_count : Z; r_secs : Z; r_dec : Z; r_toff : Z;
  r_tag : Z; r_word : Z; r_flags : Z;
  r_samples : list (Z * Z)                 (* real, imaginary *)
}.

(** The identifier byte: 3 bits beam, 3 bits tuning, one bit that marks DRX8,
    one bit polarisation (bit 7). *)
Definition id_byte (eight : bool) (r : recorded) : Z :=
  r_beam r + 8 * r_tune r + 64 * (if eight then 1 else 0) + 128 * r_pol r.

Definition header_bytes (eight : bool) (r : recorded) : list Z :=
  [222; 192; 222; 92] ++ be 1 (id_byte eight r) ++ be 3 (r_count r) ++ be 4 (r_secs r)
  ++ be 2 (r_dec r) ++ be 2 (r_toff r) ++ be 8 (r_tag r) ++ be 4 (r_word r) ++ be 4 (r_flags r).

(** Two's complement: one byte per sample with the real part in the high
    nibble (DRX), or one byte per component (DRX8). *)
Definition drx_sample (s : Z * Z) : list Z := [16 * (fst s mod 16) + snd s mod 16].
Definition drx8_sample (s : Z * Z) : list Z := [fst s mod 256; snd s mod 256].

Definition drx_bytes (r : recorded) : list Z := header_bytes false r ++ flat_map drx_sample (r_samples r).
Definition drx8_bytes (r : recorded) : list Z := header_bytes true r ++ flat_map drx8_sample (r_samples r).

Definition fits (lo hi : Z) (s : Z * Z) : Prop := lo <= fst s <= hi /\ lo <= snd s <= hi.

(** Field ranges, and 4096 samples within [lo, hi]. *)
Definition well_formed (lo hi : Z) (r : recorded) : Prop :=
  0 <= r_beam r < 8 /\ 0 <= r_tune r < 8 /\ 0 <= r_pol r < 2 /\
  0 <= r_count r < 2 ^ 24 /\ 0 <= r_secs r < 2 ^ 32 /\ 0 <= r_dec r < 2 ^ 16 /\ 0 <= r_toff r < 2 ^ 16 /\
  0 <= r_tag r < 2 ^ 64 /\ 0 <= r_word r < 2 ^ 32 /\ 0 <= r_flags r < 2 ^ 32 /\
  zlen (r_samples r) = 4096 /\ Forall (fits lo hi) (r_samples r).
Definition well_formed_drx : recorded -> Prop := well_formed (-8) 7.
Definition well_formed_drx8 : recorded -> Prop := well_formed (-128) 127.

(** re0, im0, re1, im1, ... *)
Definition interleave (l : list (Z * Z)) : list Z := flat_map (fun s => [fst s; snd s]) l.

(** [k] is a nearest integer to [q], the even one of two. *)
Definition nearest_even (q : Q) (k : Z) : Prop :=
  (Qle (inject_Z k - (1 # 2)) q /\ Qle q (inject_Z k + (1 # 2)))%Q /\
  ((q == inject_Z k - (1 # 2))%Q \/ (q == inject_Z k + (1 # 2))%Q -> Z.even k = true).

Definition saturate (lo hi v : Z) : Z := if v <? lo then lo else if hi <? v then hi else v.

(** The DRX filters: code and output sample rate in samples per second. *)
Definition drx_filters : list (Z * Z) :=
  [(1, 250000); (2, 500000); (3, 1000000); (4, 2000000); (5, 4900000); (6, 9800000); (7, 19600000)].
