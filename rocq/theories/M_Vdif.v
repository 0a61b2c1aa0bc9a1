(** Model of the VDIF reader (lsl/reader/vdif.cpp, vdif.py) and writer
    (lsl/writer/vdif.py), except the calendar part of the time handling. *)
From Coq Require Import List ZArith Bool QArith.
From Verif Require Export M_Drx.
Import ListNotations.
Open Scope Z_scope.

(** Bit field [lo, lo+n) of a 32-bit word (vdif.cpp 17-39, little-endian host:
    bit fields are allocated from the least significant bit). *)
Definition bitf (lo n w : Z) : Z := Z.land (Z.shiftr w lo) (2 ^ n - 1).

(** One of the 32-bit words of a header. *)
Definition hword (i : Z) (raw : list Z) : Z := le_val (slice (4 * i) 4 raw).

(** The header attributes (vdif.cpp 358-442). *)
Record vhead := mkVH {
  h_invalid : Z; h_legacy : Z; h_secs : Z; h_epoch : Z; h_frame : Z; h_version : Z;
  h_nchan : Z; h_length : Z; h_complex : Z; h_bits : Z; h_thread : Z; h_station : Z;
  h_ext1 : Z; h_ext2 : Z; h_ext3 : Z; h_ext4 : Z
}.

(** The payload array: real or complex, one row per channel (vdif.cpp 296-356).
    A single channel is a 1-D array, here one row. *)
Inductive vdata (V : Type) := Real (rows : list (list V)) | Complex (rows : list (list (V * V))).
Arguments Real {V} _.
Arguments Complex {V} _.

(** A read_frame call: a frame, EOFError, SyncError(location), or another exception. *)
Inductive vrd (A : Type) := VGot (a : A) | VEof | VSync (loc : Z) | VExc (e : exn).
Arguments VGot {A} _.
Arguments VEof {A}.
Arguments VSync {A} _.
Arguments VExc {A} _.

(** bitsPerSample (vdif.cpp 205-212) and headerSize *)
Definition head_size (legacy : Z) : Z := if legacy =? 0 then 32 else 16.

(** memcpy of the basic and extended headers (vdif.cpp 203-252). *)
Definition parse_head (raw ext : list Z) : vhead :=
  let w0 := hword 0 raw in let w1 := hword 1 raw in
  let w2 := hword 2 raw in let w3 := hword 3 raw in
  mkVH (bitf 31 1 w0) (bitf 30 1 w0) (bitf 0 30 w0) (bitf 24 6 w1) (bitf 0 24 w1)
       (bitf 29 3 w2) (Z.shiftl 1 (bitf 24 5 w2)) (bitf 0 24 w2)
       (bitf 31 1 w3) (bitf 26 5 w3 + 1) (bitf 16 10 w3) (bitf 0 16 w3)
       (hword 0 ext) (hword 1 ext) (hword 2 ext) (hword 3 ext).

Section Samples.
Context {V : Type} (lut : Z -> Z -> V).   (* bits per sample, level -> value *)

(** The samples of one byte, least significant first (vdif.cpp 88-113, 139-163). *)
Definition byte_samples (bits b : Z) : list V :=
  map (fun i => lut bits (Z.land (Z.shiftr b (bits * i)) (2 ^ bits - 1))) (zseq 0 (Z.to_nat (8 / bits))).

Fixpoint pair_up (l : list V) : list (V * V) :=
  match l with a :: b :: r => (a, b) :: pair_up r | _ => [] end.
End Samples.

(** Newshape to (n/nchan, nchan) and Transpose (vdif.cpp 330-356): row c holds
    elements c, c+nchan, ...; a size mismatch raises MemoryError. *)
Definition strided {A} (nchan c : Z) (l : list A) : list A :=
  flat_map (fun t => firstn 1 (zdrop (t * nchan + c) l)) (zseq 0 (Z.to_nat (zlen l / nchan))).
Definition reshape {A} (nchan : Z) (l : list A) : res (list (list A)) :=
  if nchan =? 1 then Ok [l]
  else if negb (zlen l mod nchan =? 0) then Raise MemoryError
  else Ok (map (fun c => strided nchan c l) (zseq 0 (Z.to_nat nchan))).

Section Reader.
Context {V : Type} (lut : Z -> Z -> V).

(** Lines 280-356: samples, complex pairing, reshape. *)
Definition parse_data (h : vhead) (d : list Z) : res (vdata V) :=
  if negb ((h_bits h =? 8) || (h_bits h =? 4) || (h_bits h =? 2) || (h_bits h =? 1)) then Raise RuntimeError
  else
    let s := flat_map (byte_samples lut (h_bits h)) d in
    if h_complex h =? 1 then
      bind (reshape (h_nchan h) (pair_up s)) (fun rows => Ok (Complex rows))
    else bind (reshape (h_nchan h) s) (fun rows => Ok (Real rows)).

(** read_frame (vdif.py 403-419) over read_vdif (vdif.cpp 175-468).  The C
    code ignores a failing seek. *)
Definition read_vdif (f : file) : file * vrd (vhead * vdata V) :=
  let '(f1, raw) := f_read 16 f in
  if negb (zlen raw =? 16) then (f1, VEof)
  else
    let h0 := parse_head raw [] in
    let hs := head_size (h_legacy h0) in
    if h_length h0 * 8 <? hs then
      let f2 := fst (f_seek (-16) 1 f1) in (f2, VSync (f_tell f2))
    else
      let '(f2, ext) := if h_legacy h0 =? 0 then f_read 16 f1 else (f1, repeat 0 16) in
      if negb (zlen ext =? 16) then (f2, VEof)
      else
        let n := h_length h0 * 8 - hs in
        let '(f3, d) := f_read n f2 in
        if negb (zlen d =? n) then (f3, VEof)
        else
          let h := parse_head raw ext in
          match parse_data h d with
          | Raise e => (f3, VExc e)
          | Ok x => (f3, VGot (h, x))
          end.
End Reader.

(** vdif*_i8_LUT (vdif.cpp 86-117): 1-bit -1, 1; 2-bit -3, -1, 1, 3 (round of
    -3.3359 ... 3.3359); 4-bit l-8; 8-bit b-128. *)
Definition lut_i8 (bits l : Z) : Z :=
  if bits =? 1 then 2 * l - 1
  else if bits =? 2 then 2 * l - 3
  else if bits =? 4 then l - 8
  else l - 128.

(** vdif*_f32_LUT (vdif.cpp 60-117) as exact rationals; the rounding to single
    precision is not modelled (it is monotone and keeps the values distinct). *)
Definition lut_f32 (bits l : Z) : Q :=
  if bits =? 1 then inject_Z (2 * l - 1)
  else if bits =? 2 then
    if l =? 0 then (-33359 # 10000)%Q else if l =? 1 then (-1 # 1)%Q
    else if l =? 2 then 1%Q else (33359 # 10000)%Q
  else if bits =? 4 then (inject_Z (l - 8) / (295 # 100))%Q
  else ((2 * l - 255) # 256)%Q.

Definition read_f32 : file -> file * vrd (vhead * vdata Q) := read_vdif lut_f32.

(** read_frame_i8 (vdif.py 422-456).  Real data: int8 values.  For complex
    data vdif.cpp 318-323 reads the int8 array through a float pointer: nSamples floats,
    4*nSamples bytes, out of an array of nSamples bytes. *)
Definition i8_complex_bytes_read (nsamples : Z) : Z := 4 * nsamples.
Definition i8_complex_bytes_held (nsamples : Z) : Z := nsamples.
Definition read_i8_real : file -> file * vrd (vhead * vdata Z) := read_vdif lut_i8.

(** FrameHeader.extended_user_data for NICT and NRAO headers (vdif.py 186-264); [None]
    for the versions that have no sample rate (0x00 empty, 0x02 ALMA, 0xAB
    Haystack); another version raises RuntimeError. Result (rate, is_MHz). *)
Definition user_rate (ext1 : Z) : res (option (Z * bool)) :=
  let edv := Z.land (Z.shiftr ext1 24) 255 in
  if (edv =? 0) || (edv =? 2) || (edv =? 171) then Ok None
  else if (edv =? 1) || (edv =? 3) then
    Ok (Some (Z.land ext1 (2 ^ 23 - 1), negb (Z.land (Z.shiftr ext1 23) 1 =? 0)))
  else Raise RuntimeError.

(** ** Writer *)
(** Python/numpy conversion of a float to int32: truncation toward zero. *)
Definition trunc (q : Q) : Z := Z.quot (Qnum q) (Zpos (Qden q)).

Inductive wdata := WReal (l : list Q) | WComplex (l : list (Q * Q)).
Definition w_isreal (d : wdata) : bool := match d with WReal _ => true | _ => false end.

(** _data_adjust (writer/vdif.py 55-72).  The int32 addition is taken not to overflow. *)
Definition interlaced (d : wdata) : list Z :=
  match d with
  | WReal l => map trunc l
  | WComplex l => flat_map (fun c => [trunc (fst c); trunc (snd c)]) l
  end.
Definition biased (bits : Z) (d : wdata) : list Z :=
  map (fun v => Z.land ((v + 2 ^ (bits - 1)) mod 2 ^ 32) (2 ^ bits - 1)) (interlaced d).

Definition b255 (v k : Z) : Z := Z.land (Z.shiftr v k) 255.

(** The 32 header bytes (writer/vdif.py 110-149); [len] is len(raw),
    [khz] int(sample_rate/1000). *)
Definition whead (bits : Z) (isreal : bool) (stand secs epoch frame khz len : Z) : list Z :=
  let L := len / 8 in
  [b255 secs 0; b255 secs 8; b255 secs 16; Z.land (Z.shiftr secs 24) 63;
   b255 frame 0; b255 frame 8; b255 frame 16; Z.land epoch 63;
   b255 L 0; b255 L 8; b255 L 16; 64;
   b255 stand 0; b255 stand 8; 0;
   Z.lor (if isreal then 0 else 128) (Z.shiftl (Z.land (bits - 1) 31) 2);
   b255 khz 0; b255 khz 8; b255 khz 16; 1;
   0; 0; 0; 0; 0; 0; 0; 0; 0; 0; 0; 0].

(** The inner loop over one word (writer/vdif.py 154-156): None is IndexError. *)
Fixpoint pack_word (bits : Z) (n : nat) (p : Z) (l : list Z) : option Z :=
  match n with
  | O => Some 0
  | S k => match l with
           | [] => None
           | v :: r => match pack_word bits k (p + 1) r with
                       | None => None
                       | Some w => Some (Z.lor (Z.shiftl v (bits * p)) w)
                       end
           end
  end.

(** The outer loop (writer/vdif.py 152-160): [nb] bytes of raw are left. *)
Fixpoint pack_words (bits : Z) (fuel : nat) (nb : Z) (l : list Z) : res (list Z) :=
  match fuel with
  | O => Ok []
  | S k =>
      if nb <=? 0 then Ok []
      else match pack_word bits (Z.to_nat (32 / bits)) 0 l with
           | None => Raise IndexError
           | Some w => if nb <? 4 then Raise IndexError
                       else bind (pack_words bits k (nb - 4) (zdrop (32 / bits) l)) (fun r =>
                              Ok ([b255 w 0; b255 w 8; b255 w 16; b255 w 24] ++ r))
           end
  end.

(** __init__'s bit depth check, create_raw_frame (writer/vdif.py 46-48, 99-162). *)
Definition write_vdif (bits stand secs epoch frame khz : Z) (d : wdata) : res (list Z) :=
  if negb ((bits =? 1) || (bits =? 2) || (bits =? 4) || (bits =? 8)) then Raise ValueError
  else
    let data := biased bits d in
    let nb := 4 * zlen data / (32 / bits) in
    bind (pack_words bits (S (length data)) nb data) (fun body =>
      Ok (whead bits (w_isreal d) stand secs epoch frame khz (32 + nb) ++ body)).

(** ** Describing a stream (vdif.py 459-598) *)
Section Describe.
Context {V : Type} (reader : file -> file * vrd (vhead * V)).

Definition v_restore (f f1 : file) : file := fst (f_seek (f_tell f) 0 f1).

(** get_frame_size (vdif.py 459-468) *)
Definition v_frame_size (f : file) : file * res Z :=
  match reader f with
  | (f1, VGot (h, _)) => (v_restore f f1, Ok (h_length h * 8))
  | (f1, VEof) => (v_restore f f1, Raise EOFError)
  | (f1, VSync _) => (v_restore f f1, Raise SyncError)
  | (f1, VExc e) => (v_restore f f1, Raise e)
  end.

(** One successful read, skipping [fs] bytes at each sync error (vdif.py
    486-492, 522-528, 540-546).  [fuel]: the loop in the code has no bound;
    every turn moves forward by at least 16 bytes, so the file length is a
    bound (see P_Vdif.v). *)
Fixpoint v_next (fuel : nat) (fs : Z) (f : file) : file * vrd (vhead * V) :=
  match fuel with
  | O => (f, VEof)
  | S k => match reader f with
           | (f1, VSync _) => v_next k fs (fst (f_seek fs 1 f1))
           | r => r
           end
  end.

(** get_thread_count (vdif.py 471-501) and its loop *)
Fixpoint thread_loop (fuel n : nat) (fs : Z) (f : file) (seen : list Z) : file * res (list Z) :=
  match n with
  | O => (f, Ok seen)
  | S k => match v_next fuel fs f with
           | (f1, VGot (h, _)) => thread_loop fuel k fs f1 (add_new (h_thread h) seen)
           | (f1, VExc e) => (f1, Raise e)
           | (f1, _) => (f1, Ok seen)
           end
  end.
Definition v_fuel (f : file) : nat := S (length (f_data f)).
Definition thread_count (f : file) : file * res Z :=
  match v_frame_size f with
  | (f0, Raise e) => (f0, Raise e)
  | (f0, Ok fs) =>
      let '(f1, r) := thread_loop (v_fuel f) 1024 fs f0 [] in
      (v_restore f0 f1, bind r (fun l => Ok (zlen l)))
  end.

(** Dictionaries keyed by thread. *)
Fixpoint dget (k : Z) (d : list (Z * Z)) : option Z :=
  match d with [] => None | (k', v) :: r => if k =? k' then Some v else dget k r end.
Fixpoint dset (k v : Z) (d : list (Z * Z)) : list (Z * Z) :=
  match d with
  | [] => [(k, v)]
  | (k', v') :: r => if k =? k' then (k', v) :: r else (k', v') :: dset k v r
  end.

(** The reference second of each thread (vdif.py 516-533). *)
Fixpoint ref_loop (fuel n : nat) (fs : Z) (f : file) (ref : list (Z * Z)) : file * res (list (Z * Z)) :=
  match n with
  | O => (f, Ok ref)
  | S k => match v_next fuel fs f with
           | (f1, VGot (h, _)) => ref_loop fuel k fs f1 (dset (h_thread h) (h_secs h) ref)
           | (f1, VExc e) => (f1, Raise e)
           | (f1, _) => (f1, Ok ref)
           end
  end.

(** Watch the second counters (vdif.py 535-563).  [n] bounds the number of
    frames: the file length is enough. *)
Fixpoint watch_loop (fuel n : nat) (fs nthreads : Z) (f : file) (ref cur : list (Z * Z)) (fnd : list Z)
  : file * res (list (Z * Z)) :=
  match n with
  | O => (f, Ok cur)
  | S k =>
      match v_next fuel fs f with
      | (f1, VGot (h, _)) =>
          match dget (h_thread h) ref with
          | None => (f1, Raise KeyError)
          | Some s =>
              let same := h_secs h =? s in
              let cur' := if same then dset (h_thread h) (h_frame h) cur else cur in
              let ref' := if same then ref else dset (h_thread h) (h_secs h) ref in
              let fnd' := if same then fnd else add_new (h_thread h) fnd in
              if zlen fnd' =? nthreads then (f1, Ok cur')
              else watch_loop fuel k fs nthreads f1 ref' cur' fnd'
          end
      | (f1, VExc e) => (f1, Raise e)
      | (f1, _) => (f1, Ok cur)
      end
  end.

(** The most common value, the first one met on ties (vdif.py 565-576). *)
Fixpoint tally (vs : list Z) (m : list (Z * Z)) : list (Z * Z) :=
  match vs with
  | [] => m
  | v :: r => tally r (dset v (1 + match dget v m with Some c => c | None => 0 end) m)
  end.
Definition best_of (m : list (Z * Z)) : Z :=
  fst (fold_left (fun b kv => if snd b <? snd kv then kv else b) m (0, 0)).

(** get_frames_per_second (vdif.py 504-580) *)
Definition frames_per_second (f : file) : file * res Z :=
  match v_frame_size f with
  | (f0, Raise e) => (f0, Raise e)
  | (f0, Ok fs) =>
      match thread_count f0 with
      | (f1, Raise e) => (f1, Raise e)
      | (f1, Ok nt) =>
          match ref_loop (v_fuel f) (Z.to_nat nt) fs f1 [] with
          | (f2, Raise e) => (v_restore f1 f2, Raise e)
          | (f2, Ok ref) =>
              let '(f3, r) := watch_loop (v_fuel f) (v_fuel f) fs nt f2 ref [] [] in
              (v_restore f1 f3, bind r (fun cur => Ok (1 + best_of (tally (map snd cur) []))))
          end
      end
  end.
End Describe.

(** get_sample_rate (vdif.py 583-598): the length of the payload's last axis
    times the frames per second.  All rows have the same length. *)
Definition row_len {V} (x : vdata V) : Z :=
  match x with Real rows => zlen (hd [] rows) | Complex rows => zlen (hd [] rows) end.
Definition sample_rate_of {V} (reader : file -> file * vrd (vhead * vdata V)) (f : file) : file * res Z :=
  match frames_per_second reader f with
  | (f0, Raise e) => (f0, Raise e)
  | (f0, Ok r) =>
      match reader f0 with
      | (f1, VGot (_, x)) => (v_restore f0 f1, Ok (row_len x * r))
      | (f1, VEof) => (v_restore f0 f1, Raise EOFError)
      | (f1, VSync _) => (v_restore f0 f1, Raise SyncError)
      | (f1, VExc e) => (v_restore f0 f1, Raise e)
      end
  end.

(** A client that calls read_frame up to n times and stops at the first exception. *)
Section Client.
Context {A : Type} (reader : file -> file * vrd A).
Fixpoint vreads (n : nat) (f : file) : file * list A * option exn :=
  match n with
  | O => (f, [], None)
  | S k => match reader f with
           | (f1, VGot a) => let '(f2, l, e) := vreads k f1 in (f2, a :: l, e)
           | (f1, VEof) => (f1, [], Some EOFError)
           | (f1, VSync _) => (f1, [], Some SyncError)
           | (f1, VExc e) => (f1, [], Some e)
           end
  end.
End Client.
