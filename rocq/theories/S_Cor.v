(** The COR and TBX frame formats and the vocabulary of C18-C20 and C46,
    independent of the readers. *)
From Coq Require Import List ZArith Bool.
From Verif Require Import LibBytes.
Import ListNotations.
Open Scope Z_scope.

Definition sync_bytes : list Z := [222; 192; 222; 92].

(** A single precision complex number as the bit patterns of its real and
    imaginary parts; conjugation flips the sign bit of the second. *)
Definition cplx := (Z * Z)%type.
Definition conj (c : cplx) : cplx :=
  (fst c, if snd c <? 2 ^ 31 then snd c + 2 ^ 31 else snd c - 2 ^ 31).
Record vis4 := mkVis { v_xx : cplx; v_xy : cplx; v_yx : cplx; v_yy : cplx }.

(** A recorded COR frame: one baseline, consecutive channels. *)
Record cor_rec := mkCorRec {
  k_id : Z; k_count : Z; k_secs : Z; k_chan : Z; k_gain : Z;
  k_tag : Z; k_navg : Z; k_s0 : Z; k_s1 : Z; k_vis : list vis4
}.

Definition vis_words (v : vis4) : list Z :=
  [fst (v_xx v); snd (v_xx v); fst (v_xy v); snd (v_xy v);
   fst (v_yx v); snd (v_yx v); fst (v_yy v); snd (v_yy v)].

(** Header fields big-endian (two's complement where signed), data little-endian. *)
Definition cor_head (r : cor_rec) : list (list Z) :=
  [sync_bytes; be 1 (k_id r) ++ be 3 (k_count r); be 4 (k_secs r); be 2 (k_chan r); be 2 (k_gain r);
   be 8 (k_tag r); be 4 (k_navg r); be 2 (k_s0 r); be 2 (k_s1 r)].
Definition cor_bytes (r : cor_rec) : list Z :=
  concat (cor_head r) ++ flat_map (le 4) (flat_map vis_words (k_vis r)).

Definition word32 (w : Z) : Prop := 0 <= w < 2 ^ 32.
Definition vis_ok (v : vis4) : Prop := Forall word32 (vis_words v).

(** A frame of [n] channels with every field in range. *)
Definition cor_ok (n : Z) (r : cor_rec) : Prop :=
  0 <= k_id r < 256 /\ 0 <= k_count r < 2 ^ 24 /\ 0 <= k_secs r < 2 ^ 32 /\
  0 <= k_chan r < 2 ^ 16 /\ 0 <= k_gain r < 2 ^ 16 /\
  - 2 ^ 63 <= k_tag r < 2 ^ 63 /\ - 2 ^ 31 <= k_navg r < 2 ^ 31 /\
  - 2 ^ 15 <= k_s0 r < 2 ^ 15 /\ - 2 ^ 15 <= k_s1 r < 2 ^ 15 /\
  zlen (k_vis r) = n /\ Forall vis_ok (k_vis r).

Definition cor_modes : list Z := [33; 72; 112; 192].

(** The reader recognises shorter frames by a sync word where the next frame
    would start; [unambiguous] says the frame's own data does not contain the
    bit pattern of the sync word at such a place (the real part of XX in
    channel 33, 72 or 112). *)
Definition zero_vis : vis4 := mkVis (0, 0) (0, 0) (0, 0) (0, 0).
Definition unambiguous (r : cor_rec) : Prop :=
  forall k, In k [33; 72; 112] -> k < zlen (k_vis r) ->
    fst (v_xx (znth zero_vis k (k_vis r))) <> 1558102238 (* 0x5CDEC0DE *).

(** The visibilities a user should see: for an autocorrelation the recorded YX
    is meaningless and is replaced by the conjugate of XY. *)
Definition seen_vis (r : cor_rec) : list vis4 :=
  if k_s0 r =? k_s1 r then map (fun v => mkVis (v_xx v) (v_xy v) (conj (v_xy v)) (v_yy v)) (k_vis r)
  else k_vis r.

(** A recorded TBX frame; samples in channel, stand, polarisation order. *)
Record tbx_rec := mkTbxRec {
  x_id : Z; x_count : Z; x_secs : Z; x_chan : Z; x_nstand : Z; x_nchan : Z; x_tag : Z;
  x_samples : list (Z * Z)
}.
Definition tbx_head (r : tbx_rec) : list (list Z) :=
  [sync_bytes; be 1 (x_id r) ++ be 3 (x_count r); be 4 (x_secs r); be 4 (x_chan r);
   be 2 (x_nstand r); be 2 (x_nchan r); be 8 (x_tag r)].
(** Two's complement nibbles, real part high. *)
Definition tbx_bytes (r : tbx_rec) : list Z :=
  concat (tbx_head r) ++ map (fun s => 16 * (fst s mod 16) + snd s mod 16) (x_samples r).

Definition tbx_mode (ns nc : Z) : Prop := In ns [64; 128; 256] /\ In nc [4; 8; 12; 16].

Definition tbx_ok (ns nc : Z) (r : tbx_rec) : Prop :=
  0 <= x_id r < 256 /\ 0 <= x_count r < 2 ^ 24 /\ 0 <= x_secs r < 2 ^ 32 /\ 0 <= x_chan r < 2 ^ 32 /\
  x_nstand r = ns /\ x_nchan r = nc /\ - 2 ^ 63 <= x_tag r < 2 ^ 63 /\
  zlen (x_samples r) = ns * nc * 2 /\
  Forall (fun s => -8 <= fst s <= 7 /\ -8 <= snd s <= 7) (x_samples r).
