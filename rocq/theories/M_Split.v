(** Model of scripts/splitDRX.py: where the split begins and what is copied. *)
From Coq Require Import List ZArith Bool QArith Qround.
From Verif Require Import M_Py.
Import ListNotations.
Open Scope Z_scope.

(** drx.FRAME_SIZE (reader/drx.py, readers.hpp): 4128 bytes. *)
Definition FRAME_SIZE : nat := 4128.
(** fhIn.read(n): the bytes read and the bytes that follow; fewer at the end of the file. *)
Definition read (n : nat) (data : list Z) : list Z * list Z := (firstn n data, skipn n data).
(** The inner loop of split_file (26-28). *)
Fixpoint copy_frames (size : nat) (k : nat) (data : list Z) : list Z * list Z :=
  match k with
  | O => ([], data)
  | S k => let '(c, r) := read size data in let '(o, r) := copy_frames size k r in (c ++ o, r)
  end.
(** split_file (22-38): the bytes written and what is left to be read.  The progress bar is not modelled. *)
Fixpoint split_file (size : nat) (captures beampols : nat) (data : list Z) : list Z * list Z :=
  match captures with
  | O => ([], data)
  | S c => let '(a, r) := copy_frames size beampols data in let '(b, r) := split_file size c beampols r in (a ++ b, r)
  end.
(** The loop over the files (143-166). *)
Fixpoint split_all (size : nat) (n captures beampols : nat) (data : list Z) : list (list Z) * list Z :=
  match n with
  | O => ([], data)
  | S n => let '(a, r) := split_file size captures beampols data in let '(l, r) := split_all size n captures beampols r in (a :: l, r)
  end.
(** nCaptures = args.count * srate // 4096 (114-115), then int() in split_file (25).  Simplification: exact numbers. *)
Definition captures_of (count srate : Q) : nat := Z.to_nat (Qfloor (count * srate / 4096)).
(** nRecursions (135-138). *)
Definition recursions (size : nat) (recursive : bool) (captures beampols : nat) (data : list Z) : res nat :=
  match (captures * beampols)%nat with
  | O => Raise ZeroDivisionError
  | S k => Ok (if recursive then ((length data / size) / S k)%nat else 1%nat)
  end.
(** What is written from the position where the split begins (135-166); math.log10 of no recursions is a ValueError (140), and so is
    the format :04d of the seconds to keep, a float, in the name of the file when neither option is given (152-157). *)
Definition split (size : nat) (recursive date : bool) (count srate : Q) (beampols : nat) (data : list Z) : res (list (list Z)) :=
  let captures := captures_of count srate in
  bind (recursions size recursive captures beampols data) (fun n =>
  match n with O => Raise ValueError | _ => if negb recursive && negb date then Raise ValueError else Ok (fst (split_all size n captures beampols data)) end).

(** A frame by its tuning and polarization (Frame.id) and a number for its contents. *)
Record dframe := mkD { f_tune : Z; f_pol : Z; f_what : Z }.
(** The search for the beginning of a capture (127-133): [cur] is the frame whose id was taken last, the list is what is left to be
    read, which at first begins with the very frame [cur] (the file has been set back, 85). *)
Fixpoint seek_first (cur : dframe) (rest : list dframe) : res (list dframe) :=
  if negb (2 * (f_tune cur - 1) + f_pol cur =? 0) then
    match rest with [] => Raise EOFError | f :: r => seek_first f r end
  else Ok rest.
(** From junkFrame on. *)
Definition begin_split (frames : list dframe) : res (list dframe) :=
  match frames with [] => Raise EOFError | junk :: _ => seek_first junk frames end.
