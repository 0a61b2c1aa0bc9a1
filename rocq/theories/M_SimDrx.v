(** Model of lsl/sim/drx.py: simulated DRX frames. *)
From Coq Require Import List ZArith Bool QArith.
From Verif Require Export M_Drx.
Import ListNotations.
Open Scope Z_scope.

(** numpy round(): to the nearest integer, ties to even.  Floating point
    samples are rationals (finite floats are); NaN and infinities are not modelled. *)
Definition round_even (q : Q) : Z :=
  let n := Qnum q in let d := Zpos (Qden q) in
  let f := n / d in
  let r := n mod d in
  if 2 * r <? d then f
  else if d <? 2 * r then f + 1
  else if Z.even f then f else f + 1.

(** clip(-8, 7) *)
Definition clip4 (v : Z) : Z := Z.min 7 (Z.max (-8) v).

(** The payload of a frame: complex floats, the CI8 structured type, or an array
    of another type. *)
Inductive payload :=
| Cplx (l : list (Q * Q))
| Ci8 (l : list (Z * Z))
| OtherKind (n : Z).

(** i and q before packing (sim/drx.py 70-86). *)
Definition quantise (p : payload) : list (Z * Z) :=
  match p with
  | Cplx l => map (fun s => (clip4 (round_even (fst s)), clip4 (round_even (snd s)))) l
  | Ci8 l => l
  | OtherKind _ => []
  end.

(** i += ((i & 8) << 1); i & 0xF on int8 arrays (sim/drx.py 87-88, 90). *)
Definition nib (i : Z) : Z := Z.land (to_int8 (i + Z.shiftl (Z.land i 8) 1)) 15.
(** (((i & 0xF) << 4) | (q & 0xF)) on int8, stored to uint8 (sim/drx.py 90). *)
Definition pack4 (s : Z * Z) : Z :=
  (Z.lor (to_int8 (Z.shiftl (nib (fst s)) 4)) (nib (snd s))) mod 256.

Definition b8 (v k : Z) : Z := Z.land (Z.shiftr v k) 255.

(** frame_to_frame (sim/drx.py 19-92), given the frame's attributes.  The
    flags are written as a 64-bit integer over the tuning word and flags fields. *)
Definition frame_to_frame (id count secs dec toff tag flags : Z) (p : payload) : list Z :=
  [222; 192; 222; 92; id mod 256;
   b8 count 16; b8 count 8; b8 count 0;
   b8 secs 24; b8 secs 16; b8 secs 8; b8 secs 0;
   b8 dec 8; b8 dec 0;
   b8 toff 8; b8 toff 0;
   b8 tag 56; b8 tag 48; b8 tag 40; b8 tag 32; b8 tag 24; b8 tag 16; b8 tag 8; b8 tag 0;
   b8 flags 56; b8 flags 48; b8 flags 40; b8 flags 32; b8 flags 24; b8 flags 16; b8 flags 8; b8 flags 0]
  ++ map pack4 (quantise p).

(** SimFrame attributes (sim/drx.py 101-132). The integer attributes are set. *)
Record simframe := mkSim {
  s_beam : Z; s_tune : Z; s_pol : Z; s_dec : Z; s_toff : Z; s_count : Z;
  s_time : Z; s_flags : Z; s_data : option payload
}.

Definition payload_len (p : payload) : Z :=
  match p with Cplx l => zlen l | Ci8 l => zlen l | OtherKind n => n end.

(** is_valid(raise_errors) (sim/drx.py 176-226): Ok b is the returned value.
    Beam, tuning and polarisation are checked after masking (self.id). *)
Definition sim_is_valid (raise_errors : bool) (s : simframe) : res bool :=
  let bad := if raise_errors then Raise ValueError else Ok false in
  let '(beam, tune, pol) := drx_id_tuple (make_drx_id (s_beam s) (s_tune s) (s_pol s)) in
  if s_toff s >=? fS then Ok false
  else if negb ((1 <=? beam) && (beam <=? 4)) then bad
  else if negb ((1 <=? tune) && (tune <=? 2)) then bad
  else if negb ((0 <=? pol) && (pol <=? 1)) then bad
  else match s_data s with
       | None => bad
       | Some p => if negb (payload_len p =? 4096) then bad
                   else match p with OtherKind _ => bad | _ => Ok true end
       end.

(** create_raw_frame (sim/drx.py 228-239) after _update (134-147): the frame and
    second counts are multiplied by zero; the value returned by is_valid is ignored.
    Without data, or with data of the wrong length, the code after an ignored "False" fails with a
    numpy error (modelled as AttributeError / ValueError). *)
Definition create_raw_frame (s : simframe) : res (list Z) :=
  bind (sim_is_valid true s) (fun _ =>
    match s_data s with
    | None => Raise AttributeError
    | Some p =>
        match p with
        | OtherKind _ => Raise AttributeError
        | _ => if negb (payload_len p =? 4096) then Raise ValueError
               else Ok (frame_to_frame (make_drx_id (s_beam s) (s_tune s) (s_pol s))
                          (0 * s_count s) (0 * (s_time s / fS)) (s_dec s) (s_toff s)
                          (s_time s) (s_flags s) p)
        end
    end).

(** load_frame (sim/drx.py 149-174): back-fill from a frame that was read. *)
Fixpoint pairs (l : list Z) : list (Z * Z) :=
  match l with a :: b :: r => (a, b) :: pairs r | _ => [] end.
Definition load_frame (d : dframe) : simframe :=
  let '(b, t, p) := drx_id_tuple (d_id d) in
  mkSim b t p (d_dec d) (d_toff d) (d_count d) (d_tag d) (d_flags d)
        (Some (Cplx (map (fun s => (inject_Z (fst s), inject_Z (snd s))) (pairs (d_data d))))).
