(** What it means for a decoded frame (header attributes and data array) to
    show a recorded frame. *)
From Coq Require Import List ZArith Bool QArith.
From Verif Require Import M_Vdif S_Vdif.
Import ListNotations.
Open Scope Z_scope.

(** Header attributes are the recorded fields; the array holds one row per
    channel of the values the level table [lut] gives to the recorded levels. *)
Definition shows {V} (lut : Z -> Z -> V) (r : vrec) (h : vhead) (x : vdata V) : Prop :=
  h = mkVH (b2z (r_invalid r)) (b2z (r_legacy r)) (r_secs r) (r_epoch r) (r_frame r) (r_version r)
       (2 ^ r_lognchan r) (frame_len r / 8) (b2z (r_complex r)) (r_bits r) (r_thread r) (r_station r)
       (fst (fst (fst (r_ext r)))) (snd (fst (fst (r_ext r)))) (snd (fst (r_ext r))) (snd (r_ext r)) /\
  match x with
  | Real rows => r_complex r = false /\ by_channel (2 ^ r_lognchan r) (map (lut (r_bits r)) (r_levels r)) rows
  | Complex rows => r_complex r = true /\
      by_channel (2 ^ r_lognchan r) (complex_of (map (lut (r_bits r)) (r_levels r))) rows
  end.

(** The data array a reader with level table [lut] must return for written data. *)
Definition expect {V} (lut : Z -> Z -> V) (bits : Z) (d : wdata) : vdata V :=
  let level q := lut bits (trunc q + 2 ^ (bits - 1)) in
  match d with
  | WReal l => Real [map level l]
  | WComplex l => Complex [map (fun c => (level (fst c), level (snd c))) l]
  end.
