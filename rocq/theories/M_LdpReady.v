(** Model of DRXFile._ready_file and DRX8File._ready_file (lsl/reader/ldp.py 313-375, 779-841): the two are the
    same code apart from the frame size, the reader and is_drx / is_drx8. *)
From Coq Require Import List ZArith Bool.
From Verif Require Export M_Files M_Drx.
Import ListNotations.
Open Scope Z_scope.

Section Ready.
(** FRAME_SIZE, read_frame, is_drx or is_drx8 *)
Context (size : Z) (reader : file -> file * rd dframe) (kind : dframe -> bool).

(** The three tests of ldp.py 327-331: the mode, fS/decimation, the time tag after 1980. *)
Definition good_start (d : dframe) : bool :=
  kind d && negb (d_dec d =? 0) && (61849368000000000 <? d_tag d).

(** The loop of ldp.py 323-337 and the seek after it (338).  [fuel] bounds the turns; each moves
    on by at least one byte, so the file size is enough (see P_LdpReady.v). *)
Fixpoint align (fuel : nat) (f : file) : file * res dframe :=
  match fuel with
  | O => (f, Raise MemoryError)   (* never reached *)
  | S k =>
      match reader f with
      | (f1, AtEOF) => (f1, Raise EOFError)
      | (f1, BadSync _) => align k (fst (f_seek (- size + 1) 1 f1))
      | (f1, Got d) => if good_start d then (fst (f_seek (- size) 1 f1), Ok d) else align k f1
      end
  end.

(** The frame count the seek of ldp.py 354 moves by. *)
Definition checkpoint (mb : Z) : Z := (mb * 1024 ^ 2 - 1) / size + 1.

(** newFrame.time - junkFrame.time > 300 (ldp.py 356-357), in exact arithmetic (simplification: the
    code's float difference is within a microsecond of it). *)
Definition far (d d2 : dframe) : bool :=
  300 * fS <? (d_tag d2 - d_toff d2) - (d_tag d - d_toff d).

(** One turn of the checkpoint loop (ldp.py 343-363); true is its break.  FilePositionSaver
    puts the position back, also on an exception. *)
Definition gap_check (d : dframe) (f : file) (mb : Z) : file * res bool :=
  if mb * 1024 ^ 2 <? zlen (f_data f) then
    match reader (fst (f_seek (checkpoint mb * size) 1 f)) with
    | (_, AtEOF) => (f, Raise EOFError)
    | (_, BadSync _) => (f, Raise SyncError)
    | (f2, Got d2) => if far d d2 then (fst (f_seek (f_tell f2 - size) 0 f), Ok true) else (f, Ok false)
    end
  else (f, Ok false).
Fixpoint gap_checks (d : dframe) (f : file) (mbs : list Z) : file * res unit :=
  match mbs with
  | [] => (f, Ok tt)
  | mb :: r => match gap_check d f mb with
               | (f1, Raise e) => (f1, Raise e)
               | (f1, Ok true) => (f1, Ok tt)
               | (f1, Ok false) => gap_checks d f1 r
               end
  end.

(** _ready_file.  The identifiers and time tags collected in ldp.py 366-374 are not used. *)
Definition ready (f : file) : file * res unit :=
  match align (S (length (f_data f))) f with
  | (f1, Raise e) => (f1, Raise e)
  | (f1, Ok d) =>
      match gap_checks d f1 [1; 2; 4; 8; 16] with
      | (f2, Raise e) => (f2, Raise e)
      | (f2, Ok _) =>
          match read_n reader 32 f2 with
          | (f3, _, Some e) => (f3, Raise e)
          | (f3, _, None) => (fst (f_seek (- 32 * size) 1 f3), Ok tt)
          end
      end
  end.
End Ready.

Definition ready_drx : file -> file * res unit := ready drx_size read_drx is_drx.
Definition ready_drx8 : file -> file * res unit := ready drx8_size read_drx8 is_drx8.
