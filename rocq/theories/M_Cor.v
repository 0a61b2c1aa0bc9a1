(** Model of the COR and TBX readers with their process-wide mode caches:
    lsl/reader/cor.cpp, tbx.cpp, cor.py, tbx.py. *)
From Coq Require Import List ZArith Bool.
From Verif Require Export M_Drx.
Import ListNotations.
Open Scope Z_scope.

(** Conversion of an unsigned [bits]-bit pattern to the C signed type. *)
Definition signed (bits v : Z) : Z := (v + 2 ^ (bits - 1)) mod 2 ^ bits - 2 ^ (bits - 1).

(** The position after seek(d, 1); the C code ignores failures of seek
    (cor.cpp 123, 173; tbx.cpp 99, 188). *)
Definition f_rel (d : Z) (f : file) : file := fst (f_seek d 1 f).

(** ** COR *)
(** The static variables cached_nchan and cor_size (cor.cpp 50-53). *)
Record ccache := mkCC { cc_nchan : Z; cc_size : option Z }.
Definition cor_fresh : ccache := mkCC 192 None.

(** frameSize (cor.cpp 63) *)
Definition cor_size (nchan : Z) : Z := 16 + 8 + 4 + 2 + 2 + nchan * 8 * 4.

(** A frame read by read_cor.  [c_data] is the array data[NCHAN][2][2] as raw
    32-bit words, real then imaginary; the float values themselves are never
    computed with, except for the sign flip of std::conj. *)
Record cframe := mkC {
  c_id : Z; c_count : Z; c_secs : Z; c_chan : Z; c_gain : Z;
  c_tag : Z; c_navg : Z; c_s0 : Z; c_s1 : Z; c_nchan : Z; c_data : list Z
}.

(** The payload as uint32_t words (cor.cpp 37-40), little-endian host. *)
Fixpoint words (l : list Z) : list Z :=
  match l with
  | a :: b :: c :: d :: r => le_val [a; b; c; d] :: words r
  | _ => []
  end.

(** The loop of cor.cpp 161-163: element [1][0] becomes the conjugate of [0][1]. *)
Fixpoint fix_yx (l : list Z) : list Z :=
  match l with
  | xr :: xi :: ar :: ai :: _ :: _ :: yr :: yi :: r =>
      xr :: xi :: ar :: ai :: ar :: Z.lxor ai 2147483648 :: yr :: yi :: fix_yx r
  | _ => l
  end.

(** validSync5C of payload.raw[k*4*2] (cor.cpp 108-112). *)
Definition cor_probe (k : Z) (raw : list Z) : bool := le_val (slice (32 + k * 8 * 4) 4 raw) =? 1558102238.

(** "Determine the number of channels in the frame" (cor.cpp 108-116) *)
Definition cor_detect (N : Z) (raw : list Z) : Z :=
  if (33 <? N) && cor_probe 33 raw then 33
  else if (72 <? N) && cor_probe 72 raw then 72
  else if (112 <? N) && cor_probe 112 raw then 112
  else N.

(** memcpy, byte swaps, data array, attributes (cor.cpp 143-221).  "H" gives an
    unsigned 16-bit value. *)
Definition cor_parse (N : Z) (raw : list Z) : cframe :=
  let fcw := bswap 4 (le_val (slice 4 4 raw)) in
  let s0 := signed 16 (bswap 2 (le_val (slice 28 2 raw))) in
  let s1 := signed 16 (bswap 2 (le_val (slice 30 2 raw))) in
  let a := words (slice 32 (N * 8 * 4) raw) in
  mkC (Z.shiftr fcw 24) (Z.land fcw 16777215)
      (bswap 4 (le_val (slice 8 4 raw)))
      (signed 16 (bswap 2 (le_val (slice 12 2 raw))) mod 65536)
      (signed 16 (bswap 2 (le_val (slice 14 2 raw))) mod 65536)
      (signed 64 (bswap 8 (le_val (slice 16 8 raw))))
      (signed 32 (bswap 4 (le_val (slice 24 4 raw))))
      s0 s1 N (if s0 =? s1 then fix_yx a else a).

(** read_cor_impl<N> (cor.cpp 56-238); [inl n] is the tail call
    read_cor_impl<n> of cor.cpp 125-133. *)
Definition cor_impl (N : Z) (st : ccache) (f : file) : ccache * file * (Z + rd cframe) :=
  let sz := match cc_size st with Some s => s | None => cor_size N end in
  let '(f1, raw) := f_read sz f in
  let st1 := mkCC (cc_nchan st) (Some sz) in
  if negb (zlen raw =? cor_size N) then (st1, f1, inr AtEOF)
  else
    let n := cor_detect N raw in
    if negb (n =? N) then (mkCC n None, f_rel (- cor_size N) f1, inl n)
    else if negb (valid_sync raw) then
      let f2 := f_rel (- cor_size N) f1 in (mkCC 192 None, f2, inr (BadSync (f_tell f2)))
    else (st1, f1, inr (Got (cor_parse N raw))).

(** The switch of read_cor (cor.cpp 240-253). *)
Definition cor_dispatch (n : Z) : Z :=
  if n =? 33 then 33 else if n =? 72 then 72 else if n =? 112 then 112 else 192.

(** read_frame (cor.py 196-211).  The tail call is followed at most [fuel]
    times; a second one never happens (cor_no_second_retry in P_Cor.v), so the
    result for an exhausted fuel is arbitrary. *)
Fixpoint cor_loop (fuel : nat) (N : Z) (st : ccache) (f : file) : ccache * file * rd cframe :=
  match cor_impl N st f with
  | (st1, f1, inr r) => (st1, f1, r)
  | (st1, f1, inl n) => match fuel with
                        | O => (st1, f1, AtEOF)
                        | S k => cor_loop k n st1 f1
                        end
  end.
Definition read_cor (st : ccache) (f : file) : ccache * file * rd cframe :=
  cor_loop 1 (cor_dispatch (cc_nchan st)) st f.

(** FrameHeader.is_cor (cor.py 69-79): adp_id 0x02 or 0x06 *)
Definition is_cor (c : cframe) : bool := (c_id c =? 2) || (c_id c =? 6).

(** ** TBX *)
(** cached_nstand, cached_nchan, tbx_size (tbx.cpp 46-50) *)
Record tcache := mkTC { tc_nstand : Z; tc_nchan : Z; tc_size : option Z }.
Definition tbx_fresh : tcache := mkTC 256 16 None.

(** frameSize (tbx.cpp 59) *)
Definition tbx_size (ns nc : Z) : Z := 20 + 8 + nc * ns * 2 * 1.

(** A frame read by read_tbx; [t_data] is re, im, re, im, ... in channel,
    stand, polarisation order. *)
Record tframe := mkT {
  t_id : Z; t_count : Z; t_secs : Z; t_chan : Z; t_nstand : Z; t_nchan : Z; t_tag : Z; t_data : list Z
}.

(** tbx.cpp 160-229; first_chan, nstand and nchan go through "h" (signed 16 bits). *)
Definition tbx_parse (NS NC : Z) (raw : list Z) : tframe :=
  let fcw := bswap 4 (le_val (slice 4 4 raw)) in
  mkT (Z.shiftr fcw 24) (Z.land fcw 16777215)
      (bswap 4 (le_val (slice 8 4 raw)))
      (signed 16 (bswap 4 (le_val (slice 12 4 raw))))
      (signed 16 (bswap 2 (le_val (slice 16 2 raw))))
      (signed 16 (bswap 2 (le_val (slice 18 2 raw))))
      (signed 64 (bswap 8 (le_val (slice 20 8 raw))))
      (fill4 (slice 28 (NC * NS * 2 * 1) raw)).

(** The supported cases of the switch (tbx.cpp 105-139). *)
Definition tbx_supported (ns nc : Z) : bool :=
  ((ns =? 64) || (ns =? 128) || (ns =? 256)) && ((nc =? 4) || (nc =? 8) || (nc =? 12) || (nc =? 16)).

(** read_tbx_impl<NS,NC> (tbx.cpp 52-241); [inl] is the tail call of lines
    101-139.  The sync error of an unsupported mode is raised after seeking back. *)
Definition tbx_impl (NS NC : Z) (st : tcache) (f : file) : tcache * file * (Z * Z + rd tframe) :=
  let sz := match tc_size st with Some s => s | None => tbx_size NS NC end in
  let '(f1, raw) := f_read sz f in
  let st1 := mkTC (tc_nstand st) (tc_nchan st) (Some sz) in
  if negb (zlen raw =? tbx_size NS NC) then (st1, f1, inr AtEOF)
  else
    let ns := bswap 2 (le_val (slice 16 2 raw)) in
    let nc := bswap 2 (le_val (slice 18 2 raw)) in
    if negb (ns =? NS) || negb (nc =? NC) then
      let f2 := f_rel (- tbx_size NS NC) f1 in
      (mkTC ns nc None, f2, if tbx_supported ns nc then inl (ns, nc) else inr (BadSync (f_tell f2)))
    else if negb (valid_sync raw) then
      let f2 := f_rel (- tbx_size NS NC) f1 in (st1, f2, inr (BadSync (f_tell f2)))
    else (st1, f1, inr (Got (tbx_parse NS NC raw))).

(** The switch of read_tbx (tbx.cpp 251-280). *)
Definition tbx_dispatch (ns nc : Z) : Z * Z :=
  (if ns =? 64 then 64 else if ns =? 128 then 128 else 256,
   if nc =? 4 then 4 else if nc =? 8 then 8 else if nc =? 12 then 12 else 16).

Fixpoint tbx_loop (fuel : nat) (NS NC : Z) (st : tcache) (f : file) : tcache * file * rd tframe :=
  match tbx_impl NS NC st f with
  | (st1, f1, inr r) => (st1, f1, r)
  | (st1, f1, inl (ns, nc)) => match fuel with
                               | O => (st1, f1, AtEOF)
                               | S k => tbx_loop k ns nc st1 f1
                               end
  end.

(** read_frame (tbx.py 169-184); one tail call at most, as for COR. *)
Definition read_tbx (st : tcache) (f : file) : tcache * file * rd tframe :=
  let '(ns, nc) := tbx_dispatch (tc_nstand st) (tc_nchan st) in tbx_loop 1 ns nc st f.

(** What a call raises or returns: read_frame_ci8 (tbx.py 187-211) evaluates the
    undefined name FRAME_SIZE in its SyncError handler. *)
Definition read_tbx_ci8 (st : tcache) (f : file) : tcache * file * res tframe :=
  match read_tbx st f with
  | (st1, f1, Got t) => (st1, f1, Ok t)
  | (st1, f1, AtEOF) => (st1, f1, Raise EOFError)
  | (st1, f1, BadSync _) => (st1, f1, Raise NameError)
  end.

(** FrameHeader.is_tbx (tbx.py 65-75) *)
Definition is_tbx (t : tframe) : bool := t_id t =? 8.

(** ** Describing a stream *)
Section Describe.
Context {St A : Type} (reader : St -> file -> St * file * rd A).
Context (is_kind : A -> bool) (chan : A -> Z) (nchan : A -> Z).

(** The search loop of get_frame_size (cor.py 220-233, tbx.py 220-233):
    result (cPos, nPos, frame) of the first frame of the right kind. *)
Fixpoint find_frame (n : nat) (st : St) (f : file) : St * file * option (Z * Z * A) :=
  match n with
  | O => (st, f, None)
  | S k =>
      match reader st f with
      | (st1, f1, Got a) => if is_kind a then (st1, f1, Some (f_tell f, f_tell f1, a)) else find_frame k st1 f1
      | (st1, f1, AtEOF) => (st1, f1, None)
      | (st1, f1, BadSync _) => find_frame k st1 (f_rel 1 f1)
      end
  end.

Definition restore (f f1 : file) : file := fst (f_seek (f_tell f) 0 f1).

(** get_frame_size (cor.py 214-238, tbx.py 214-238) *)
Definition frame_size (st : St) (f : file) : St * file * res Z :=
  let '(st1, f1, r) := find_frame 2500 st f in
  (st1, restore f f1, match r with Some (c, n, _) => Ok (n - c) | None => Raise RuntimeError end).

(** get_channel_count's loop (cor.py 281-295): up to 64 frames, any exception
    ends it; result: distinct first channels, channels of the last frame read. *)
Fixpoint chan_loop (n : nat) (st : St) (f : file) (seen : list Z) (per : Z) : St * file * list Z * Z :=
  match n with
  | O => (st, f, seen, per)
  | S k =>
      match reader st f with
      | (st1, f1, Got a) => chan_loop k st1 f1 (add_new (chan a) seen) (nchan a)
      | (st1, f1, _) => (st1, f1, seen, per)
      end
  end.

(** cor.get_channel_count (cor.py 275-298) *)
Definition cor_channel_count (st : St) (f : file) : St * file * Z :=
  let '(st1, f1, seen, per) := chan_loop 64 st f [] 0 in (st1, restore f f1, zlen seen * per).

(** cor.get_frames_per_obs (cor.py 241-272); get_baseline_count (cor.py 301-310) is the constant. *)
Definition cor_frames_per_obs (st : St) (f : file) : St * file * res Z :=
  let '(st1, f1, total) := cor_channel_count st f in
  let '(st2, f2, r) := find_frame 2500 st1 f1 in
  let per := match r with Some (_, _, a) => nchan a | None => 0 end in
  (st2, restore f1 f2,
   if per =? 0 then Raise ZeroDivisionError else Ok (total / per * (256 * (256 + 1) / 2))).

(** tbx.get_frames_per_obs (tbx.py 241-267): a sync error moves nowhere and
    uses up one of the 2500 turns. *)
Fixpoint obs_loop_tbx (n : nat) (st : St) (f : file) (seen : list Z) : St * file * list Z :=
  match n with
  | O => (st, f, seen)
  | S k =>
      match reader st f with
      | (st1, f1, Got a) => obs_loop_tbx k st1 f1 (if is_kind a then add_new (chan a) seen else seen)
      | (st1, f1, AtEOF) => (st1, f1, seen)
      | (st1, f1, BadSync _) => obs_loop_tbx k st1 (f_rel 0 f1) seen
      end
  end.
Definition tbx_frames_per_obs (st : St) (f : file) : St * file * Z :=
  let '(st1, f1, seen) := obs_loop_tbx 2500 st f [] in (st1, restore f f1, zlen seen).
End Describe.

(** A client that calls read_frame up to n times and stops at the first exception. *)
Section Client.
Context {St A : Type} (reader : St -> file -> St * file * rd A).
Fixpoint reads (n : nat) (st : St) (f : file) : St * file * list A * option exn :=
  match n with
  | O => (st, f, [], None)
  | S k => match reader st f with
           | (st1, f1, Got a) => let '(st2, f2, l, e) := reads k st1 f1 in (st2, f2, a :: l, e)
           | (st1, f1, AtEOF) => (st1, f1, [], Some EOFError)
           | (st1, f1, BadSync _) => (st1, f1, [], Some SyncError)
           end
  end.
End Client.
