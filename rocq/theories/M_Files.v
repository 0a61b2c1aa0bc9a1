(** Model of binary files opened for reading, and of lsl/reader/utils.py. *)
From Coq Require Import List ZArith Bool.
From Verif Require Export M_Py LibList.
Import ListNotations.
Open Scope Z_scope.

(** An ordinary file opened in 'rb' mode: content and position.  This models
    Python's io.BufferedReader, not LSL code. *)
Record file := mkFile { f_data : list Z; f_pos : Z }.

(** fh.read(n): n < 0 means "everything left". *)
Definition f_read (n : Z) (f : file) : file * list Z :=
  let rest := zdrop (f_pos f) (f_data f) in
  let d := if n <? 0 then rest else ztake n rest in
  (mkFile (f_data f) (f_pos f + zlen d), d).

Definition f_tell (f : file) : Z := f_pos f.

(** fh.seek(pos, whence): a negative target raises and leaves the position. *)
Definition f_seek (p whence : Z) (f : file) : file * option exn :=
  let t := if whence =? 0 then p else if whence =? 1 then f_pos f + p else zlen (f_data f) + p in
  if t <? 0 then (f, Some OSError) else (mkFile (f_data f) t, None).

(** ** SplitFileWrapper (reader/utils.py 31-119) *)
(** State: the parts' contents (already in order: the sort of utils.py 38-39 is
    on file names and not modelled), [_idx] of the open part, the position in
    the open part, and the wrapper's [_pos].  [w_closed] after close().
    [_idx] can be -1 (utils.py 107 with a negative position): Python indexing
    then selects the last part. *)
Record split := mkSplit {
  w_parts : list (list Z);
  w_idx : Z;
  w_off : Z;
  w_pos : Z;
  w_closed : bool
}.

Definition nfiles (w : split) : Z := zlen (w_parts w).

(** Python list indexing l[i] for -len <= i < len. *)
Definition pyget {A} (d : A) (i : Z) (l : list A) : A :=
  if i <? 0 then znth d (i + zlen l) l else znth d i l.

Definition part (w : split) : list Z := pyget [] (w_idx w) (w_parts w).

(** self._offsets (utils.py 43-45): prefix sums of the sizes; [acc] so far. *)
Fixpoint offsets_from (acc : Z) (parts : list (list Z)) : list Z :=
  match parts with
  | [] => [acc]
  | p :: r => match r with
              | [] => [acc]
              | _ => acc :: offsets_from (acc + zlen p) r
              end
  end.
Definition offsets (parts : list (list Z)) : list Z := offsets_from 0 parts.

(** self._total_size (utils.py 46) *)
Definition total_size (parts : list (list Z)) : Z := fold_right (fun p a => zlen p + a) 0 parts.

(** bisect.bisect (= bisect_right): the number of leading elements <= x of a sorted list. *)
Fixpoint bisect (l : list Z) (x : Z) : Z :=
  match l with
  | [] => 0
  | y :: r => if y <=? x then 1 + bisect r x else 0
  end.

(** _open_part(index) (utils.py 60-70). *)
Definition open_part (i : Z) (w : split) : split :=
  mkSplit (w_parts w) i 0 (pyget 0 i (offsets (w_parts w))) (w_closed w).

(** _open_part() without index (utils.py 66-67). *)
Definition open_next (w : split) : split := open_part (Z.min (w_idx w + 1) (nfiles w - 1)) w.

(** __init__ (utils.py 36-52); raises IndexError for an empty list (utils.py 48). *)
Definition split_open (parts : list (list Z)) : res split :=
  match parts with
  | [] => Raise IndexError
  | _ => Ok (open_part 0 (mkSplit parts 0 0 0 false))
  end.

(** read(size) (utils.py 79-91). *)
Definition split_read (n : Z) (w : split) : split * res (list Z) :=
  if w_closed w then (w, Raise ValueError)
  else
    let '(f1, d1) := f_read n (mkFile (part w) (w_off w)) in
    let w1 := mkSplit (w_parts w) (w_idx w) (f_pos f1) (w_pos w + zlen d1) (w_closed w) in
    if (zlen d1 <? n) && (w_idx w <? nfiles w - 1) then
      let w2 := open_next w1 in
      let '(f2, d2) := f_read (n - zlen d1) (mkFile (part w2) (w_off w2)) in
      (mkSplit (w_parts w) (w_idx w2) (f_pos f2) (w_pos w2 + zlen d2) (w_closed w), Ok (d1 ++ d2))
    else (w1, Ok d1).

(** tell() (utils.py 96-100) *)
Definition split_tell (w : split) : res Z :=
  if w_closed w then Raise ValueError else Ok (w_pos w).

(** seek(pos, 0) (utils.py 106-111).  A negative pos selects part -1, i.e. the
    last one, then the inner seek raises: the wrapper is left at its start. *)
Definition split_seek_abs (p : Z) (w : split) : split * option exn :=
  let w1 := open_part (bisect (offsets (w_parts w)) p - 1) w in
  let o := p - w_pos w1 in
  if o <? 0 then (w1, Some OSError)
  else (mkSplit (w_parts w) (w_idx w1) o (w_pos w1 + o) (w_closed w), None).

(** seek(pos, whence) (utils.py 102-119); note the sign for whence = 2. *)
Definition split_seek (p whence : Z) (w : split) : split * option exn :=
  if w_closed w then (w, Some ValueError)
  else if whence =? 0 then split_seek_abs p w
  else if whence =? 1 then split_seek_abs (w_pos w + p) w
  else split_seek_abs (total_size (w_parts w) - p) w.

(** close() (utils.py 72-77) *)
Definition split_close (w : split) : split :=
  mkSplit (w_parts w) (w_idx w) (w_off w) (w_pos w) true.

(** ** A common interface: any seekable reader *)
Inductive fop := Read (n : Z) | Seek (p whence : Z) | Tell.
Inductive fout := Data (d : list Z) | Pos (p : Z) | Done | Exc (e : exn).

Definition f_step (f : file) (o : fop) : file * fout :=
  match o with
  | Read n => let '(f', d) := f_read n f in (f', Data d)
  | Seek p wh => let '(f', e) := f_seek p wh f in (f', match e with None => Done | Some x => Exc x end)
  | Tell => (f, Pos (f_tell f))
  end.

Definition split_step (w : split) (o : fop) : split * fout :=
  match o with
  | Read n => let '(w', r) := split_read n w in (w', match r with Ok d => Data d | Raise e => Exc e end)
  | Seek p wh => let '(w', e) := split_seek p wh w in (w', match e with None => Done | Some x => Exc x end)
  | Tell => (w, match split_tell w with Ok p => Pos p | Raise e => Exc e end)
  end.

Section Runs.
Context {S : Type} (step : S -> fop -> S * fout).
Fixpoint fruns (s : S) (os : list fop) : S * list fout :=
  match os with
  | [] => (s, [])
  | o :: r => let '(s1, x) := step s o in let '(s2, xs) := fruns s1 r in (s2, x :: xs)
  end.

(** A with-block body: operations until one raises (then the rest is skipped);
    returns the state and the exception leaving the body, if any. *)
Fixpoint body (s : S) (os : list fop) : S * option exn :=
  match os with
  | [] => (s, None)
  | o :: r => match step s o with
              | (s1, Exc e) => (s1, Some e)
              | (s1, _) => body s1 r
              end
  end.

(** with FilePositionSaver(fh): body  (utils.py 14-28): __init__ remembers
    tell(), __exit__ seeks back whether or not the body raised; the body's
    exception, if any, is re-raised. *)
Definition with_saver (s : S) (os : list fop) : S * option exn :=
  match step s Tell with
  | (s0, Pos m) =>
      let '(s1, e) := body s0 os in
      match step s1 (Seek m 0) with
      | (s2, Exc e') => (s2, Some e')
      | (s2, _) => (s2, e)
      end
  | (s0, Exc e) => (s0, Some e)
  | (s0, _) => (s0, None)
  end.
End Runs.
