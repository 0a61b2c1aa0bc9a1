(** Model of the five concrete frame buffers of lsl/reader/buffer.py. *)
From Coq Require Import List ZArith Bool.
From Verif Require Import M_Buffer.
Import ListNotations.
Open Scope Z_scope.

(** A data sample: finite values are abstracted to an integer (only zero-ness
    matters here); infinities and NaN are kept because COR payloads are IEEE
    floats taken from the file. *)
Inductive num := Fin (z : Z) | Inf | NaN.

(** x * 0 in IEEE arithmetic ("fillFrame.payload._data *= 0"). *)
Definition mul0 (x : num) : num := match x with Fin _ => Fin 0 | _ => NaN end.

(** buffer.py 45-79, _cmp_frames: the integer compared, by shape of the id. *)
Definition cmp_key (i : list Z) : Z :=
  match i with
  | [a; b] => 2 * (a - 1) + b
  | [a; b; c] => 16777216 * (a - 1) + 4096 * (b - 1) + c
  | [a] => a
  | _ => 0   (* no frame class has such an id *)
  end.

(** ** DRX and DRX8 *)
(** The parts of a DRX/DRX8 Frame the buffer looks at: header.drx_id (a byte),
    payload.timetag, payload._data, valid. *)
Record drx_frame := mkDrx { dx_id : Z; dx_tt : Z; dx_data : list num; dx_valid : bool }.

(** reader/drx.py 100-111, drx8.py 95-106: FrameHeader.id *)
Definition drx_id_tuple (i : Z) : list Z :=
  [Z.land i 7; Z.land (Z.shiftr i 3) 7; Z.land (Z.shiftr i 7) 1].

(** buffer.py 517-539 (DRX) and 621-643 (DRX8), create_fill; [bit6] is 0 for
    DRX and 64 (0x40) for DRX8.  Simplification: "_data *= 0" and, for the
    structured 'ci8' arrays, "_data[...] = 0" both give zeros on the finite
    samples a DRX frame can hold; modelled by [mul0]. *)
Definition drx_fill (bit6 : Z) (t : drx_frame) (i : list Z) : drx_frame :=
  match i with
  | [b; u; p] =>
      mkDrx (Z.lor (Z.lor (Z.lor (Z.land b 7) (Z.shiftl (Z.land u 7) 3)) bit6)
                   (Z.shiftl (Z.land p 1) 7))
            (dx_tt t) (map mul0 (dx_data t)) false
  | _ => mkDrx (dx_id t) (dx_tt t) (map mul0 (dx_data t)) false  (* ids are triples *)
  end.

Definition drx_ops (bit6 : Z) : ops drx_frame :=
  mkOps _ dx_tt (fun f => drx_id_tuple (dx_id f)) (fun f => drx_id_tuple (dx_id f))
        (fun f => cmp_key (drx_id_tuple (dx_id f))) (drx_fill bit6) dx_valid.

(** get_max_frames (buffer.py 491-507, 595-611). *)
Definition drx_frame_list (beams tunes pols : list Z) : list (list Z) :=
  flat_map (fun b => flat_map (fun t => map (fun p => [b; t; p]) pols) tunes) beams.

(** The constructor with its validation (buffer.py 127-133, 484-489). *)
Definition drx_cfg (beams tunes pols : list Z) (nseg : nat) (reorder : bool) : res cfg :=
  if negb (forallb (fun t => (t =? 1) || (t =? 2)) tunes) then Raise RuntimeError
  else if negb (forallb (fun p => (p =? 0) || (p =? 1)) pols) then Raise RuntimeError
  else match nseg with
       | 0%nat => Raise IndexError      (* self.done[0] = ... on an empty deque *)
       | _ => Ok (mkCfg nseg reorder (length beams * length tunes * length pols)
                        (id_set (drx_frame_list beams tunes pols)))
       end.

(** buffer.py 489, 593: frames before 1980 are ignored. *)
Definition drx_floor : Z := 61849368000000000.

(** ** COR *)
Record cor_frame := mkCor { c_chan : Z; c_s0 : Z; c_s1 : Z; c_tt : Z; c_data : list num; c_valid : bool }.

(** buffer.py 709-730 *)
Definition cor_fill (t : cor_frame) (i : list Z) : cor_frame :=
  match i with
  | [s0; s1; ch] => mkCor ch s0 s1 (c_tt t) (map mul0 (c_data t)) false
  | _ => mkCor (c_chan t) (c_s0 t) (c_s1 t) (c_tt t) (map mul0 (c_data t)) false
  end.

(** Missing list id (buffer.py 400): id + (first_chan,); duplicate id
    (buffer.py 328): id = (stand0, stand1) (cor.py 97-103). *)
Definition cor_ops : ops cor_frame :=
  mkOps _ c_tt (fun f => [c_s0 f; c_s1 f; c_chan f]) (fun f => [c_s0 f; c_s1 f])
        (fun f => cmp_key [c_s0 f; c_s1 f]) cor_fill c_valid.

(** get_max_frames (buffer.py 681-699). *)
Definition cor_frame_list (stands chans : list Z) : list (list Z) :=
  flat_map (fun s0 => flat_map (fun s1 => if s1 <? s0 then [] else map (fun c => [s0; s1; c]) chans) stands) stands.

(** range(1, 256+1) *)
Definition cor_stands : list Z := map Z.of_nat (seq 1 256).

(** The constructor (buffer.py 140-143, 678-679); general in the stand list. *)
Definition cor_cfg_of (stands chans : list Z) (nseg : nat) (reorder : bool) : res cfg :=
  if negb (forallb (fun c => (0 <=? c) && (c <? 4096)) chans) then Raise RuntimeError
  else Ok (mkCfg nseg reorder (length stands * (length stands + 1) / 2 * length chans)
                 (id_set (cor_frame_list stands chans))).
Definition cor_cfg := cor_cfg_of cor_stands.

(** ** VDIF *)
Record vdif_frame := mkVdif { v_sec : Z; v_fis : Z; v_station : Z; v_thread : Z; v_data : list num; v_valid : bool }.

(** buffer.py 770-776: the figure of merit. *)
Definition vdif_fom (f : vdif_frame) : Z := v_sec f * 1000000 + v_fis f.

(** buffer.py 778-797 *)
Definition vdif_fill (t : vdif_frame) (i : list Z) : vdif_frame :=
  mkVdif (v_sec t) (v_fis t) (v_station t) (match i with [x] => x | _ => v_thread t end)
         (map mul0 (v_data t)) false.

Definition vdif_ops : ops vdif_frame :=
  mkOps _ vdif_fom (fun f => [v_thread f]) (fun f => [v_station f; v_thread f])
        (fun f => cmp_key [v_station f; v_thread f]) vdif_fill v_valid.

(** buffer.py 145-148, 751-768 *)
Definition vdif_cfg (threads : list Z) (nseg : nat) (reorder : bool) : res cfg :=
  if negb (forallb (fun c => (0 <=? c) && (c <? 1024)) threads) then Raise RuntimeError
  else Ok (mkCfg nseg reorder (length threads) (id_set (map (fun t => [t]) threads))).

(** ** TBX *)
Record tbx_frame := mkTbx { x_chan : Z; x_tt : Z; x_data : list num; x_valid : bool }.

(** buffer.py 863-885 *)
Definition tbx_fill (t : tbx_frame) (i : list Z) : tbx_frame :=
  mkTbx (match i with [x] => x | _ => x_chan t end) (x_tt t) (map mul0 (x_data t)) false.

(** TBX frames have no [id] attribute, so first_chan is used everywhere. *)
Definition tbx_ops : ops tbx_frame :=
  mkOps _ x_tt (fun f => [x_chan f]) (fun f => [x_chan f]) (fun f => cmp_key [x_chan f])
        tbx_fill x_valid.

(** buffer.py 135-138, 836-853 *)
Definition tbx_cfg (chans : list Z) (nseg : nat) (reorder : bool) : res cfg :=
  if negb (forallb (fun c => (0 <=? c) && (c <? 4096)) chans) then Raise RuntimeError
  else Ok (mkCfg nseg reorder (length chans) (id_set (map (fun t => [t]) chans))).
