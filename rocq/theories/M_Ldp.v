(** Model of DRXFile.read and DRX8File.read (lsl/reader/ldp.py 526-699, 992-1165; the two are the same
    code apart from the frame reader and the buffer class). *)
From Coq Require Import List ZArith Bool QArith_base.
From Verif Require Export M_Buffer M_BufferModes M_Num.
Import ListNotations.
Open Scope Z_scope.

(** What successive drx.read_frame(self.fh) calls find from the file position on: a frame, a frame-sized
    stretch with a bad sync word (errors.SyncError, position behind it), or a last
    stretch shorter than a frame (errors.EOFError, position at the end).  See M_Drx.v for the
    byte level and P_LdpBytes.v for the link. *)
Inductive slot := SFrame (f : drx_frame) | SBad | STail.

(** The loop over range(nbeampol) (ldp.py 588-598): the rest of the file, the frames read and
    whether errors.EOFError was raised. *)
Fixpoint read_chunk (n : nat) (l : list slot) : list slot * list drx_frame * bool :=
  match n with
  | O => (l, [], false)
  | S k =>
      match l with
      | [] => ([], [], true)
      | STail :: r => (r, [], true)
      | SBad :: r => read_chunk k r
      | SFrame f :: r => let '(r', fs, e) := read_chunk k r in (r', f :: fs, e)
      end
  end.

(** aStand = 2*(t-1) + p as a key of the dictionaries {0:0, 1:0, 2:0, 3:0}; None is a KeyError *)
Definition stand (f : drx_frame) : option nat :=
  match drx_id_tuple (dx_id f) with
  | [_; t; p] => let a := 2 * (t - 1) + p in if (0 <=? a) && (a <? 4) then Some (Z.to_nat a) else None
  | _ => None
  end.

Fixpoint set_nth {A} (i : nat) (x : A) (l : list A) : list A :=
  match l, i with
  | [], _ => []
  | _ :: r, O => x :: r
  | y :: r, S k => y :: set_nth k x r
  end.

(** self._timetag, setTime and the written part of each row of the data array, in blocks of one
    frame (count[aStand] is the number of blocks) *)
Record placed := mkPlaced { p_tag : list Z; p_time : option Z; p_rows : list (list (list num)) }.

(** The open file: what is left to read, self.buffer, self._timetag (None until the first read) *)
Record ldp := mkLdp { l_file : list slot; l_buf : st drx_frame; l_tag : option (list Z) }.

Section Read.
(** bit 6 of the identifiers (0 DRX, 64 DRX8), the buffer's configuration, description['nbeampol'],
    self._timetagSkip, the drx_autofill_size setting, self.ignore_timetag_errors, header.time_offset
    (simplification: one value for the whole file) *)
Context (bit6 : Z) (C : cfg) (nbeampol : nat) (skip autofill : Z) (ignore : bool) (toff : Z).
Let M := drx_ops bit6.

(** The body of "for cFrame in cFrames" (ldp.py 628-651 and 659-683). [n] is frame_count: a
    block behind the end of the array is numpy's ValueError.  setTime is in samples. *)
Definition place (n : nat) (a : placed) (f : drx_frame) : res placed :=
  match stand f with
  | None => Raise KeyError
  | Some i =>
      let c := dx_tt f in
      let old := nth i (p_tag a) 0 in
      let old := if old =? 0 then c - skip else old in
      if negb (c =? old + skip) && negb ignore then Raise RuntimeError
      else if (n <=? length (nth i (p_rows a) []))%nat then Raise ValueError
      else Ok (mkPlaced (set_nth i c (p_tag a))
                        (match p_time a with None => Some (c - toff) | t => t end)
                        (set_nth i (nth i (p_rows a) [] ++ [dx_data f]) (p_rows a)))
  end.
Fixpoint place_all (n : nat) (a : placed) (fs : list drx_frame) : res placed :=
  match fs with
  | [] => Ok a
  | f :: r => bind (place n a f) (fun a' => place_all n a' r)
  end.

(** The zero frames of "for m in range(int(missing))" (ldp.py 615-623): [i] is m+1 *)
Fixpoint zero_frames (base : drx_frame) (tag0 : Z) (i : Z) (n : nat) : list drx_frame :=
  match n with
  | O => []
  | S k => mkDrx (dx_id base) (tag0 + skip * i) (map (fun _ => Fin 0) (dx_data base)) (dx_valid base)
           :: zero_frames base tag0 (i + 1) k
  end.
(** ldp.py 605-623. [cf] is cFrames, None when it is not bound yet (NameError: the first
    frame of the buffer entry is used); an empty cFrames is an IndexError.  The float
    quotient is an integer below the limit exactly when the integers divide. *)
Definition autofill_gap (s : st drx_frame) (cf : option (list drx_frame)) (ct tag0 : Z) : res (st drx_frame) :=
  if (tag0 =? 0) || (ct =? tag0 + skip) then Ok s
  else
    let d := ct - tag0 - skip in
    if (d mod skip =? 0) && (d / skip <? autofill) then
      match Z.to_nat (d / skip) with
      | O => Ok s
      | m => match match cf with
                   | Some l => nth_error l 0
                   | None => match lookup ct (s_buf s) with Some l => nth_error l 0 | None => None end
                   end with
             | None => Raise IndexError
             | Some base => append M s (zero_frames base tag0 1 m)
             end
      end
    else Ok s.

(** The main loop (ldp.py 578-652).  [fuel] bounds the iterations; every
    iteration reads from the file, returns a set or ends the loop, so that
    [length file + n + 2] is enough (see P_Ldp.v). *)
Fixpoint loop (fuel : nat) (n : nat) (file : list slot) (s : st drx_frame) (a : placed)
         (cf : option (list drx_frame)) (nsets : nat) (eof : bool)
  : res (list slot * st drx_frame * placed * nat * bool) :=
  match fuel with
  | O => Raise MemoryError   (* never reached *)
  | S fuel' =>
      if eof || (nsets =? n)%nat then Ok (file, s, a, nsets, eof)
      else
        bind (if overfilled C s then Ok (file, s, cf, eof)
              else
                let '(file', fs, e) := read_chunk nbeampol file in
                bind (append M s fs) (fun s' => Ok (file', s', Some (if e then [] else fs), eof || e)))
          (fun '(file1, s1, cf1, eof1) =>
             match peek C true s1 with
             | None => loop fuel' n file1 s1 a cf1 nsets eof1
             | Some ct =>
                 bind (autofill_gap s1 cf1 ct (nth 0 (p_tag a) 0)) (fun s2 =>
                 bind (get M C s2) (fun '(s3, out) =>
                   match out with
                   | None => Raise TypeError   (* for cFrame in None; never reached after peek() *)
                   | Some fs => bind (place_all n a fs) (fun a' => loop fuel' n file1 s3 a' (Some fs) (S nsets) eof1)
                   end))
             end)
  end.

(** "for cFrames in self.buffer.flush()" with its break (ldp.py 656-687): flush is a generator, sets
    not asked for stay in the buffer *)
Fixpoint flush_some (n : nat) (s : st drx_frame) (ks : list Z) (a : placed) (nsets : nat)
  : res (st drx_frame * placed * nat) :=
  match ks with
  | [] => Ok (s, a, nsets)
  | k :: r =>
      bind (get_key M C s k) (fun '(s', fs) =>
      bind (place_all n a fs) (fun a' =>
        if (S nsets =? n)%nat then Ok (s', a', S nsets) else flush_some n s' r a' (S nsets)))
  end.

(** read(), [n] being frame_count (at least 1): the number of sets (the duration in units of
    one frame), the time of the first sample, the blocks written to the four rows.  Simplification: a call
    that raises has no state after it. *)
Definition read (n : nat) (l : ldp) : res (ldp * (nat * option Z * list (list (list num)))) :=
  match l_file l, is_empty (l_buf l) with
  | [], true => Raise EOFError
  | _, _ =>
      let a0 := mkPlaced (match l_tag l with None => [0; 0; 0; 0] | Some t => t end) None [[]; []; []; []] in
      bind (loop (length (l_file l) + n + 2) n (l_file l) (l_buf l) a0 None 0 false) (fun '(file, s, a, nsets, eof) =>
      bind (if eof && negb (nsets =? n)%nat then flush_some n s (keys (s_buf s)) a nsets else Ok (s, a, nsets)) (fun '(s', a', nsets') =>
        Ok (mkLdp file s' (Some (p_tag a')), (nsets', p_time a', p_rows a'))))
  end.

(** A sequence of read() calls, stopping at the first exception. *)
Fixpoint reads (ns : list nat) (l : ldp) : list (res (nat * option Z * list (list (list num)))) :=
  match ns with
  | [] => []
  | n :: r => match read n l with
              | Raise e => [Raise e]
              | Ok (l', o) => Ok o :: reads r l'
              end
  end.

(** A row of the returned array: np.zeros((4, frame_count*4096)) with the blocks written from the left.
    [zero] is one block of zeros. *)
Definition array_row (zero : list num) (n : nat) (row : list (list num)) : list (list num) :=
  row ++ repeat zero (n - length row).
End Read.

(** frame_count = int(round(duration*sample_rate/4096)), 1 when that is 0 (ldp.py 560-561), in exact
    arithmetic; the duration in samples.  Simplification: durations are not negative. *)
Definition frame_count (samples : QArith_base.Q) : nat :=
  match M_Num.py_round (QArith_base.Qdiv samples (QArith_base.inject_Z 4096)) with
  | Zpos p => Pos.to_nat p
  | _ => 1%nat
  end.

(** A freshly opened file (ldp.py 430: a new buffer). *)
Definition open_ldp (C : cfg) (file : list slot) : ldp := mkLdp file (init C drx_floor) None.
