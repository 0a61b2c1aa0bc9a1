(** Model of the DR spectrometer reader: lsl/reader/drspec.cpp, drspec.py. *)
From Coq Require Import List ZArith Bool.
From Verif Require Export M_Drx M_Cor.
Import ListNotations.
Open Scope Z_scope.

(** An element of an output array.  [CZero]: left at the initial 0; [CVal w n]:
    the single precision number with bit pattern [w] divided by [n]; [CWild]: read from
    outside the data buffer (undefined behaviour in the C code). *)
Inductive cell := CZero | CVal (w norm : Z) | CWild.

(** DRSpecHeader after the memcpy (drspec.cpp 25-45); all fields little-endian. *)
Record shead := mkSH {
  s_magic1 : Z; s_tag : Z; s_toff : Z; s_dec : Z; s_freq : list Z; s_fills : list Z; s_errors : list Z;
  s_beam : Z; s_format : Z; s_version : Z; s_flags : Z; s_nfreq : Z; s_nints : Z; s_sats : list Z; s_magic2 : Z
}.
Definition u32s (i : Z) (n : nat) (raw : list Z) : list Z :=
  map (fun k => le_val (slice (i + 4 * k) 4 raw)) (zseq 0 n).
Definition drs_head (raw : list Z) : shead :=
  mkSH (le_val (slice 0 4 raw)) (le_val (slice 4 8 raw)) (le_val (slice 12 2 raw)) (le_val (slice 14 2 raw))
       (u32s 16 2 raw) (u32s 24 4 raw)
       (map (fun k => le_val (slice (40 + k) 1 raw)) (zseq 0 4))
       (le_val (slice 44 1 raw)) (le_val (slice 45 1 raw)) (le_val (slice 46 1 raw)) (le_val (slice 47 1 raw))
       (le_val (slice 48 4 raw)) (le_val (slice 52 4 raw)) (u32s 56 4 raw) (le_val (slice 72 4 raw)).

(** pol_count (drspec.cpp 63-70): clear the lowest set bit until none is left; at
    most 8 turns for a byte. *)
Fixpoint pol_count (fuel : nat) (v : Z) : Z :=
  match fuel with
  | O => 0
  | S k => if v =? 0 then 0 else 1 + pol_count k (Z.land v (v - 1))
  end.

Section Parse.
Context (h : shead) (data : list Z).   (* data: the float buffer, as 32-bit patterns *)
Let nF := s_nfreq h.
Let fill (k : Z) : Z := znth 0 k (s_fills h).

(** uint32_t products, converted to float (the rounding of the conversion is not modelled). *)
Definition norm (f : Z) : Z := (nF * f) mod 2 ^ 32.
Definition ch0 : Z := norm (Z.min (fill 0) (fill 1)).
Definition ch1 : Z := norm (Z.min (fill 2) (fill 3)).

Definition peek (k n : Z) : cell :=
  if (0 <=? k) && (k <? zlen data) then CVal (znth 0 k data) n else CWild.
(** A loop  S[i] = data[base + stride*i + off] / n  for i < nFreqs. *)
Definition lane (base stride off n : Z) : list cell :=
  map (fun i => peek (base + stride * i + off) n) (zseq 0 (Z.to_nat nF)).
Definition zeros : list cell := repeat CZero (Z.to_nat nF).

(** The arrays A0 B0 C0 D0 and A1 B1 C1 D1. *)
Definition arrays := (list (list cell) * list (list cell))%type.
Definition slots (a b c d : list cell) : list (list cell) := [a; b; c; d].

(** parse_linear_single, parse_stokes_single (drspec.cpp 72-100, 182-197) *)
Definition single (n0 n1 : Z) : list cell * list cell := (lane (0 * nF) 1 0 n0, lane (1 * nF) 1 0 n1).
(** parse_linear_half / other_half, parse_stokes_half: two interleaved products
    (drspec.cpp 103-145, 200-219) *)
Definition pair_lanes (n0 n1 m0 m1 : Z) : (list cell * list cell) * (list cell * list cell) :=
  ((lane (0 * nF) 2 0 n0, lane (2 * nF) 2 0 n1), (lane (0 * nF) 2 1 m0, lane (2 * nF) 2 1 m1)).
(** parse_linear_full, parse_stokes_full (drspec.cpp 148-179, 222-249) *)
Definition full (n0 n1 c0 c1 m0 m1 : Z) : arrays :=
  (slots (lane (0 * nF) 4 0 n0) (lane (0 * nF) 4 1 c0) (lane (0 * nF) 4 2 c0) (lane (0 * nF) 4 3 m0),
   slots (lane (4 * nF) 4 0 n1) (lane (4 * nF) 4 1 c1) (lane (4 * nF) 4 2 c1) (lane (4 * nF) 4 3 m1)).

(** Put a pair of arrays in slot k (0..3), leaving the others zero. *)
Definition one_slot (k : Z) (p : list cell * list cell) : arrays :=
  (map (fun j => if j =? k then fst p else zeros) (zseq 0 4),
   map (fun j => if j =? k then snd p else zeros) (zseq 0 4)).
Definition two_slots (k k' : Z) (p : (list cell * list cell) * (list cell * list cell)) : arrays :=
  (map (fun j => if j =? k then fst (fst p) else if j =? k' then fst (snd p) else zeros) (zseq 0 4),
   map (fun j => if j =? k then snd (fst p) else if j =? k' then snd (snd p) else zeros) (zseq 0 4)).

(** The dispatch on the format (drspec.cpp 385-430). *)
Definition drs_parse : arrays :=
  let fmt := s_format h in
  let x0 := norm (fill 0) in let y0 := norm (fill 1) in
  let x1 := norm (fill 2) in let y1 := norm (fill 3) in
  if negb (Z.land fmt 15 =? 0) then
    if fmt =? 1 then one_slot 0 (single x0 x1)
    else if fmt =? 2 then one_slot 1 (single ch0 ch1)
    else if fmt =? 4 then one_slot 2 (single ch0 ch1)
    else if fmt =? 8 then one_slot 3 (single y0 y1)
    else if fmt =? 9 then two_slots 0 3 (pair_lanes x0 x1 y0 y1)
    else if fmt =? 6 then two_slots 1 2 (pair_lanes ch0 ch1 ch0 ch1)
    else full x0 x1 ch0 ch1 y0 y1
  else
    if fmt =? 16 then one_slot 0 (single ch0 ch1)
    else if fmt =? 32 then one_slot 1 (single ch0 ch1)
    else if fmt =? 64 then one_slot 2 (single ch0 ch1)
    else if fmt =? 128 then one_slot 3 (single ch0 ch1)
    else if fmt =? 144 then two_slots 0 3 (pair_lanes ch0 ch1 ch0 ch1)
    else full ch0 ch1 ch0 ch1 ch0 ch1.

(** Which attributes are set (drspec.cpp 524-558): bit b of the format exposes
    slot b mod 4 as the arrays of product number b (XX XY_real XY_imag YY I Q U V). *)
Definition exposed : list (Z * (list cell * list cell)) :=
  flat_map (fun b => if Z.land (s_format h) (2 ^ b) =? 0 then []
                     else [(b, (znth [] (b mod 4) (fst drs_parse), znth [] (b mod 4) (snd drs_parse)))]) (zseq 0 8).
End Parse.

(** A frame object: header attributes and product arrays (drspec.cpp 487-565). *)
Record sframe := mkSF { sf_head : shead; sf_out : list (Z * (list cell * list cell)) }.

(** read_frame (drspec.py 514-531) over read_drspec (drspec.cpp 252-590). *)
Definition read_drspec (f : file) : file * rd sframe :=
  let '(f1, raw) := f_read 76 f in
  if negb (zlen raw =? 76) then (f1, AtEOF)
  else
    let h := drs_head raw in
    if negb ((s_magic1 h =? 3235823838) && (s_magic2 h =? 3977047308)) then
      let f2 := fst (f_seek (-76) 1 f1) in (f2, BadSync (f_tell f2))
    else
      let n := 4 * (pol_count 8 (s_format h) * 2) * s_nfreq h in
      let '(f2, d) := f_read n f1 in
      if negb (zlen d =? n) then (f2, AtEOF)
      else (f2, Got (mkSF h (exposed h (words d)))).

(** FrameHeader.data_products (drspec.py 83-114): product numbers. *)
Definition data_products (fmt : Z) : list Z :=
  flat_map (fun b => if Z.land fmt (2 ^ b) =? 0 then [] else [b]) (zseq 0 8).
(** FrameHeader.is_linear, is_stokes (drspec.py 116-144) *)
Definition is_linear (fmt : Z) : bool := fmt <? 16.
Definition is_stokes (fmt : Z) : bool := if fmt <? 16 then false else true.

(** Frame.transform_size (drspec.py 327-336): the size of the first product's array. *)
Definition transform_size (s : sframe) : res Z :=
  match data_products (s_format (sf_head s)) with
  | [] => Raise IndexError
  | p :: _ => match find (fun kv => fst kv =? p) (sf_out s) with
              | Some (_, (a, _)) => Ok (zlen a)
              | None => Raise AttributeError
              end
  end.

(** The one-frame description functions (drspec.py 534-643): read a frame,
    restore the position, also when the read fails. *)
Definition drs_peek {A} (g : sframe -> res A) (f : file) : file * res A :=
  match read_drspec f with
  | (f1, Got s) => (fst (f_seek (f_tell f) 0 f1), g s)
  | (f1, AtEOF) => (fst (f_seek (f_tell f) 0 f1), Raise EOFError)
  | (f1, BadSync _) => (fst (f_seek (f_tell f) 0 f1), Raise SyncError)
  end.
Definition get_data_products : file -> file * res (list Z) := drs_peek (fun s => Ok (data_products (s_format (sf_head s)))).
Definition get_is_linear : file -> file * res bool := drs_peek (fun s => Ok (is_linear (s_format (sf_head s)))).
Definition get_ffts_per_integration : file -> file * res Z := drs_peek (fun s => Ok (s_nints (sf_head s))).
Definition get_transform_size : file -> file * res Z := drs_peek transform_size.
(** get_frame_size (drspec.py 591-607) *)
Definition drs_frame_size (f : file) : file * res Z :=
  match read_drspec f with
  | (f1, Got _) => (fst (f_seek (f_tell f) 0 f1),
                    if f_tell f1 <? 0 then Raise RuntimeError else Ok (f_tell f1 - f_tell f))
  | (f1, AtEOF) => (fst (f_seek (f_tell f) 0 f1), Raise EOFError)
  | (f1, BadSync _) => (fst (f_seek (f_tell f) 0 f1), Raise SyncError)
  end.

(** A client that reads up to n frames. *)
Fixpoint drs_reads (n : nat) (f : file) : file * list sframe * option exn :=
  match n with
  | O => (f, [], None)
  | S k => match read_drspec f with
           | (f1, Got s) => let '(f2, l, e) := drs_reads k f1 in (f2, s :: l, e)
           | (f1, AtEOF) => (f1, [], Some EOFError)
           | (f1, BadSync _) => (f1, [], Some SyncError)
           end
  end.
