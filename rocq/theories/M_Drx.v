(** Model of the DRX and DRX8 readers: lsl/reader/drx.cpp, drx8.cpp, gofast.cpp,
    drx.py, drx8.py. *)
From Coq Require Import List ZArith Bool.
From Verif Require Export M_Files LibBytes.
Import ListNotations.
Open Scope Z_scope.

(** What a read_frame call produces: a frame, lsl.reader.errors.EOFError, or
    lsl.reader.errors.SyncError(location=...). *)
Inductive rd (A : Type) := Got (a : A) | AtEOF | BadSync (loc : Z).
Arguments Got {A} _.
Arguments AtEOF {A}.
Arguments BadSync {A} _.

(** Conversion to int8_t. *)
Definition to_int8 (v : Z) : Z := (v + 128) mod 256 - 128.

(** drx8LUT (gofast.cpp 34-37): an int8_t set to i, then decremented by ((i&128)<<1). *)
Definition drx8_lut (i : Z) : Z := to_int8 (to_int8 i - Z.shiftl (Z.land i 128) 1).

(** drxLUT[i][j], j = 0, 1 (gofast.cpp 40-48); tbxLUT is the same table. *)
Definition drx_lut (i j : Z) : Z :=
  let t := Z.land (Z.shiftr i (4 * (1 - j))) 15 in to_int8 (to_int8 t - Z.shiftl (Z.land t 8) 1).

(** Attributes of a frame read from a file (drx.cpp 141-187).  [d_data] is the
    flat array re0, im0, re1, im1, ...; the float and int8 variants hold the same values. *)
Record dframe := mkD {
  d_count : Z; d_id : Z; d_secs : Z; d_dec : Z; d_toff : Z;
  d_tag : Z; d_tune : Z; d_flags : Z; d_data : list Z
}.

(** The "fill the data array" loop (drx.cpp 113-130), unrolled by four. *)
Fixpoint fill4 (l : list Z) : list Z :=
  match l with
  | b0 :: b1 :: b2 :: b3 :: r =>
      drx_lut b0 0 :: drx_lut b0 1 :: drx_lut b1 0 :: drx_lut b1 1 ::
      drx_lut b2 0 :: drx_lut b2 1 :: drx_lut b3 0 :: drx_lut b3 1 :: fill4 r
  | _ => []
  end.
(** drx8.cpp 110-121, unrolled by eight bytes. *)
Fixpoint fill8 (l : list Z) : list Z :=
  match l with
  | b0 :: b1 :: b2 :: b3 :: b4 :: b5 :: b6 :: b7 :: r =>
      drx8_lut b0 :: drx8_lut b1 :: drx8_lut b2 :: drx8_lut b3 ::
      drx8_lut b4 :: drx8_lut b5 :: drx8_lut b6 :: drx8_lut b7 :: fill8 r
  | _ => []
  end.

Section Reader.
(** sizeof(cFrame), the fill loop: the two readers differ in nothing else
    (drx.cpp / drx8.cpp). *)
Context (frame_size : Z) (fill : list Z -> list Z).

(** memcpy into the packed struct, byte swaps (drx.cpp 97-108), bit fields of
    the little-endian host (drx.cpp 17-20). *)
Definition parse (raw : list Z) : dframe :=
  let fcw := bswap 4 (le_val (slice 4 4 raw)) in
  mkD (Z.land fcw 16777215) (Z.shiftr fcw 24)
      (bswap 4 (le_val (slice 8 4 raw)))
      (bswap 2 (le_val (slice 12 2 raw)))
      (bswap 2 (le_val (slice 14 2 raw)))
      (bswap 8 (le_val (slice 16 8 raw)))
      (bswap 4 (le_val (slice 24 4 raw)))
      (bswap 4 (le_val (slice 28 4 raw)))
      (fill (slice 32 (frame_size - 32) raw)).

(** validSync5C (readers.hpp 52-57) *)
Definition valid_sync (raw : list Z) : bool := le_val (slice 0 4 raw) =? 1558102238.

(** read_frame (drx.py 222-239) over read_drx (drx.cpp 58-191). *)
Definition read_frame_gen (f : file) : file * rd dframe :=
  let '(f1, raw) := f_read frame_size f in
  if negb (zlen raw =? frame_size) then (f1, AtEOF)
  else if negb (valid_sync raw) then (f1, BadSync (f_tell f1 - frame_size))
  else (f1, Got (parse raw)).
End Reader.

Definition drx_size : Z := 4128.
Definition drx8_size : Z := 8224.
Definition read_drx : file -> file * rd dframe := read_frame_gen drx_size fill4.
Definition read_drx8 : file -> file * rd dframe := read_frame_gen drx8_size fill8.

(** FrameHeader.is_drx / is_drx8 (drx.py 92-98, drx8.py 87-93) *)
Definition is_drx (d : dframe) : bool := Z.land (Z.shiftr (d_id d) 6) 1 =? 0.
Definition is_drx8 (d : dframe) : bool := Z.land (Z.shiftr (d_id d) 6) 1 =? 1.

(** FrameHeader.id (drx.py 100-111) *)
Definition drx_id_tuple (id : Z) : Z * Z * Z :=
  (Z.land id 7, Z.land (Z.shiftr id 3) 7, Z.land (Z.shiftr id 7) 1).

(** SimFrame._update's drx_id (sim/drx.py 142) *)
Definition make_drx_id (beam tune pol : Z) : Z :=
  Z.lor (Z.lor (Z.land beam 7) (Z.shiftl (Z.land tune 7) 3)) (Z.shiftl (Z.land pol 1) 7).

(** FILTER_CODES (drx.py 71) and FrameHeader.filter_code (drx.py 122-132):
    sample_rate is fS/decimation; the dictionary lookup compares it with
    integers.  Float division is modelled exactly: a quotient that is not an integer is at
    least 1/65535 away from one, far more than the rounding error. *)
Definition fS : Z := 196000000.
Definition filter_codes : list (Z * Z) :=
  [(1, 250000); (2, 500000); (3, 1000000); (4, 2000000); (5, 4900000); (6, 9800000); (7, 19600000)].
Definition filter_code (dec : Z) : res Z :=
  if dec =? 0 then Raise ZeroDivisionError
  else if fS mod dec =? 0 then
    match find (fun kv => snd kv =? fS / dec) filter_codes with
    | Some kv => Ok (fst kv)
    | None => Raise KeyError
    end
  else Raise KeyError.

(** ** Stream description functions (drx.py 268-362) *)
Section Describe.
Context (reader : file -> file * rd dframe).

(** Read up to n frames; stop at the first exception. *)
Fixpoint read_n (n : nat) (f : file) : file * list dframe * option exn :=
  match n with
  | O => (f, [], None)
  | S k => match reader f with
           | (f1, Got d) => let '(f2, ds, e) := read_n k f1 in (f2, d :: ds, e)
           | (f1, AtEOF) => (f1, [], Some EOFError)
           | (f1, BadSync _) => (f1, [], Some SyncError)
           end
  end.

(** The FilePositionSaver block around the loop: restore, then the exception, if any. *)
Definition first_frames (n : nat) (f : file) : file * res (list dframe) :=
  let '(f1, ds, e) := read_n n f in
  let '(f2, _) := f_seek (f_tell f) 0 f1 in
  (f2, match e with None => Ok ds | Some x => Raise x end).

Definition add_new (x : Z) (l : list Z) : list Z := if existsb (Z.eqb x) l then l else l ++ [x].

(** get_beam_count (drx.py 295-317) *)
Definition beam_count (f : file) : file * res Z :=
  let '(f1, r) := first_frames 32 f in
  (f1, bind r (fun ds =>
     Ok (zlen (fold_left (fun beams d => add_new (Z.land (d_id d) 7) beams) ds [])))).

(** idCodes[beam-1] with four lists (drx.py 331-339): beam 0 is index -1, the
    last list; beams 5-7 raise IndexError (at the frame where they occur, but
    the position is restored and nothing else is observable). *)
Definition slot (beam : Z) : res Z :=
  if beam =? 0 then Ok 3 else if beam <=? 4 then Ok (beam - 1) else Raise IndexError.

Fixpoint set_slot (i : nat) (x : Z) (l : list (list Z)) : list (list Z) :=
  match l, i with
  | [], _ => []
  | c :: r, O => add_new x c :: r
  | c :: r, S k => c :: set_slot k x r
  end.

(** One frame of the loop body. *)
Definition obs_step (codes : list (list Z)) (d : dframe) : res (list (list Z)) :=
  bind (slot (Z.land (d_id d) 7)) (fun i => Ok (set_slot (Z.to_nat i) (d_id d) codes)).

Fixpoint obs_loop (codes : list (list Z)) (ds : list dframe) : res (list (list Z)) :=
  match ds with
  | [] => Ok codes
  | d :: r => bind (obs_step codes d) (fun c => obs_loop c r)
  end.

(** get_frames_per_obs (drx.py 320-341).  When both an IndexError and a read
    error occur, the first in file order is raised. *)
Definition frames_per_obs (f : file) : file * res (list Z) :=
  let '(f1, ds, e) := read_n 32 f in
  let '(f2, _) := f_seek (f_tell f) 0 f1 in
  (f2, bind (obs_loop [[]; []; []; []] ds) (fun codes =>
     match e with
     | Some x => Raise x
     | None => Ok (map (@zlen Z) codes)
     end)).

(** get_sample_rate(..., filter_code=True) (drx.py 268-292) *)
Definition stream_filter_code (f : file) : file * res Z :=
  let '(f1, r) := first_frames 1 f in
  (f1, bind r (fun ds => match ds with d :: _ => filter_code (d_dec d) | [] => Raise EOFError end)).
End Describe.
