(** Model of lsl/misc/file_cache.py. *)
From Coq Require Import List Arith ZArith Bool.
From Verif Require Export M_Py.
Import ListNotations.

(** ** Cleaning up (file_cache.py 61-84 and 395-417) *)
Section Evict.
Context {A : Type} (size mtime : A -> Z) (stuck : A -> bool).
(** sum(sizes).  Simplification: sizes are counted in bytes and the limit is the largest whole number of
    bytes that is not above max_size*1024**2; size/1024.**2 and its sums are exact in binary64 below 2**53
    bytes, so the comparison (75, 408) comes out the same. *)
Definition total (es : list A) : Z := fold_right (fun e t => (size e + t)%Z) 0%Z es.
(** min(mtimes) and mtimes.index(oldest) (76-77, 409-410): the first of the oldest. *)
Fixpoint min_mtime (es : list A) : Z :=
  match es with [] => 0%Z | [e] => mtime e | e :: r => Z.min (mtime e) (min_mtime r) end.
Fixpoint index_of (t : Z) (es : list A) : nat :=
  match es with [] => 0 | e :: r => if (mtime e =? t)%Z then 0 else S (index_of t r) end.
Definition remove_at (i : nat) (es : list A) : list A := firstn i es ++ skipn (S i) es.
(** The loop (75-84, 408-417).  When os.unlink fails (79, 83) nothing changes, so the loop goes on for ever: None.
    [n] is at least the number of files. *)
Fixpoint evict (n : nat) (limit : Z) (es : list A) : option (list A) :=
  if (total es <=? limit)%Z || (length es <=? 1) then Some es
  else match n with
       | O => Some es
       | S n' => let i := index_of (min_mtime es) es in
                 match nth_error es i with
                 | Some e => if stuck e then None else evict n' limit (remove_at i es)
                 | None => Some es
                 end
       end.
(** max_size <= 0 means no limit (67, 401). *)
Definition manage (limit : option Z) (es : list A) : option (list A) :=
  match limit with None => Some es | Some l => evict (length es) l es end.
End Evict.

(** ** FileCache (22-179) *)
(** What glob.glob('<cache_dir>/*') lists apart from cache_access.lock (68-69): files and directories.  Names that
    start with '.' and everything below a directory are not listed and not part of the model. *)
Record entry := mkE { e_name : nat; e_size : Z; e_mtime : Z; e_dir : bool }.
Definition find_entry (n : nat) (es : list entry) : option entry := find (fun e => e_name e =? n) es.
Definition put_entry (e : entry) (es : list entry) : list entry := e :: filter (fun x => negb (e_name x =? e_name e)) es.
Inductive fres := Done (es : list entry) | Failed (e : exn) (es : list entry) | Forever.
Definition fmanage (limit : option Z) (es : list entry) : fres :=
  match manage e_size e_mtime e_dir limit es with Some es' => Done es' | None => Forever end.

(** The operations.  [order] is the order in which the directory happens to be listed; [now] the time.
    - [FOpenW], [FOpenA]: open(name, 'w') / open(name, 'a') up to the point where the handle is returned (95-110)
    - [FOpenSub d size]: open('d/file', 'w'), which makes the directory [d] if it is missing (98-103)
    - [FOpenR]: open(name, 'r')
    - [FWrite]: the holder of the handle writes [k] bytes to a file opened in mode 'a' or 'w', at its end
    - [FRemove]: remove(name) (115-128); a directory stays. *)
Inductive fop :=
  | FOpenW (n : nat) (now : Z) (order : list entry -> list entry)
  | FOpenA (n : nat) (now : Z) (order : list entry -> list entry)
  | FOpenSub (d : nat) (size now : Z) (order : list entry -> list entry)
  | FOpenR (n : nat)
  | FWrite (n : nat) (k now : Z)
  | FRemove (n : nat).
Definition fstep (limit : option Z) (o : fop) (es : list entry) : fres :=
  match o with
  | FOpenW n now order =>
      match find_entry n es with
      | Some e => if e_dir e then Failed OSError es
                  else fmanage limit (order (put_entry (mkE n 0 now false) es))
      | None => fmanage limit (order (put_entry (mkE n 0 now false) es))
      end
  | FOpenA n now order =>
      match find_entry n es with
      | Some e => if e_dir e then Failed OSError es else fmanage limit (order es)
      | None => fmanage limit (order (put_entry (mkE n 0 now false) es))
      end
  | FOpenSub d size now order =>
      match find_entry d es with
      | Some e => if e_dir e then fmanage limit (order (put_entry (mkE d size now true) es))
                  else Failed OSError es
      | None => fmanage limit (order (put_entry (mkE d size now true) es))
      end
  | FOpenR n => match find_entry n es with
                | Some e => if e_dir e then Failed OSError es else Done es
                | None => Failed OSError es
                end
  | FWrite n k now => match find_entry n es with
                      | Some e => Done (put_entry (mkE n (e_size e + k) now (e_dir e)) es)
                      | None => Done es      (* removed meanwhile: the data goes nowhere *)
                      end
  | FRemove n => match find_entry n es with
                 | Some e => if e_dir e then Done es else Done (filter (fun x => negb (e_name x =? n)) es)
                 | None => Done es
                 end
  end.
(** A history; operations that raise leave the files as they are. *)
Fixpoint frun (limit : option Z) (l : list fop) (es : list entry) : fres :=
  match l with
  | [] => Done es
  | o :: r => match fstep limit o es with
              | Done es' => frun limit r es'
              | Failed _ es' => frun limit r es'
              | Forever => Forever
              end
  end.
(** Whether the lock is still held when open() has raised (95, 105: the try begins at 109). *)
Definition open_leaves_lock (r : fres) : bool := match r with Failed _ _ => true | _ => false end.

(** ** MemoryFile (188-369) *)
(** The BytesIO buffer's bytes and position, whether the file is closed, opened in binary mode, opened in 'w' or
    'a' (mode.startswith), and _mtime.  ctime and atime are not modelled; neither is the per-file lock, which is
    free whenever _closed is True. *)
Record mfile := mkF { f_data : list Z; f_pos : nat; f_closed : bool; f_bin : bool; f_wr : bool; f_mtime : Z }.
Definition new_file : mfile := mkF [] 0 true false false 0%Z.
Inductive kind := R | W | A.
Definition writing (k : kind) : bool := match k with R => false | _ => true end.
(** BytesIO.write: fills a gap with zeros, overwrites. *)
Definition bwrite (data : list Z) (pos : nat) (s : list Z) : list Z :=
  match s with [] => data | _ => firstn pos (data ++ repeat 0%Z (pos - length data)) ++ s ++ skipn (pos + length s) data end.
Definition bread (data : list Z) (pos : nat) (n : Z) : list Z :=
  if (n <? 0)%Z then skipn pos data else firstn (Z.to_nat n) (skipn pos data).
(** The bytes up to and including the first newline (10). *)
Fixpoint first_line (d : list Z) : list Z :=
  match d with [] => [] | b :: r => if (b =? 10)%Z then [b] else b :: first_line r end.
(** Calls on an open handle, files opened in binary mode. *)
Inductive call := Read (n : Z) | ReadLine | Write (s : list Z) | Seek (p w : Z) | Tell | Truncate (n : option Z) | Flush | Iterate.
Inductive answer := Bytes (b : list Z) | Num (n : Z) | Nothing | Lines (l : list (list Z)) | Err (e : exn).
Definition set_pos (f : mfile) (p : nat) : mfile := mkF (f_data f) p (f_closed f) (f_bin f) (f_wr f) (f_mtime f).
Definition set_data (f : mfile) (d : list Z) (p : nat) : mfile := mkF d p (f_closed f) (f_bin f) (f_wr f) (f_mtime f).
(** BytesIO.seek: a negative absolute position is a ValueError, a negative relative one becomes 0. *)
Definition bseek (f : mfile) (p w : Z) : res nat :=
  if (w =? 0)%Z then if (p <? 0)%Z then Raise ValueError else Ok (Z.to_nat p)
  else if (w =? 1)%Z then Ok (Z.to_nat (Z.of_nat (f_pos f) + p))
  else if (w =? 2)%Z then Ok (Z.to_nat (Z.of_nat (length (f_data f)) + p))
  else Raise ValueError.
Definition mcall (now : Z) (c : call) (f : mfile) : mfile * answer :=
  if f_closed f && negb (match c with Truncate _ => true | _ => false end) then (f, Err OSError)
  else match c with
       | Read n => let b := bread (f_data f) (f_pos f) n in (set_pos f (f_pos f + length b), Bytes b)          (* 302-315 *)
       | ReadLine => let b := first_line (skipn (f_pos f) (f_data f)) in (set_pos f (f_pos f + length b), Bytes b)   (* 317-329 *)
       | Write s => (set_data f (bwrite (f_data f) (f_pos f) s) (f_pos f + length s), Num (Z.of_nat (length s)))   (* 331-346 *)
       | Seek p w => match bseek f p w with Ok q => (set_pos f q, Nothing) | Raise e => (f, Err e) end    (* 268-281: returns None *)
       | Tell => (f, Num (Z.of_nat (f_pos f)))                                                          (* 283-291 *)
       | Truncate n =>                                                                                  (* 293-300 *)
           let n' := match n with Some n => n | None => Z.of_nat (f_pos f) end in
           if (n' <? 0)%Z then (f, Err ValueError)
           else (set_data f (firstn (Z.to_nat n') (f_data f)) (f_pos f), Num n')
       | Flush => (mkF (f_data f) (f_pos f) (f_closed f) (f_bin f) (f_wr f) (if f_wr f then now else f_mtime f), Nothing)   (* 348-358 *)
       | Iterate => let b := first_line (skipn (f_pos f) (f_data f)) in                                  (* 215-218 *)
                    (set_pos f (f_pos f + length b), Lines (match b with [] => [] | _ => [b] end))
       end.
(** MemoryFile.open (249-266). *)
Definition mopen (k : kind) (f : mfile) : res mfile :=
  if f_closed f then Ok (mkF (f_data f) (f_pos f) false true (writing k) (f_mtime f)) else Raise OSError.
(** MemoryFile.close (360-369). *)
Definition mclose (f : mfile) : mfile := mkF (f_data f) 0 true (f_bin f) (f_wr f) (f_mtime f).

(** ** MemoryCache (376-511) *)
(** _cache in insertion order. *)
Definition mcache := list (nat * mfile).
Definition lookup (n : nat) (c : mcache) : option mfile := option_map snd (find (fun x => fst x =? n) c).
Definition store (n : nat) (f : mfile) (c : mcache) : mcache := map (fun x => if fst x =? n then (n, f) else x) c.
Definition mmanage (limit : option Z) (c : mcache) : mcache :=
  match manage (fun x => Z.of_nat (length (f_data (snd x)))) (fun x => f_mtime (snd x)) (fun _ => false) limit c with
  | Some c' => c' | None => c end.
(** What "with cache.open(n, mode) as fh" does before its body (428-442).  The handle [fh] is the file found or made
    at 431-435, which may be evicted at 439; it is then [detached]: no longer in the cache. *)
Definition copen (limit : option Z) (n : nat) (k : kind) (c : mcache) : mcache * res mfile :=
  let c1 := match lookup n c with Some _ => c | None => c ++ [(n, new_file)] end in
  let c2 := match k with
            | W => match lookup n c1 with Some f => store n (set_data f [] (f_pos f)) c1 | None => c1 end
            | _ => c1
            end in
  let f := match lookup n c2 with Some f => f | None => new_file end in
  let c3 := if writing k then mmanage limit c2 else c2 in
  match mopen k f with
  | Ok f' => (store n f' c3, Ok f')
  | Raise e => (store n (mclose f) c3, Raise e)     (* the finally clause closes the file (443-444) *)
  end.
(** One step of a program that uses the cache; at most one open handle per name. *)
Inductive mop := MOpen (n : nat) (k : kind) | MCall (n : nat) (c : call) | MClose (n : nat) | MRemove (n : nat).
Inductive seen := Opened | Answer (a : answer) | Closed | OpenErr (e : exn) | NoFile.
Definition mstep (limit : option Z) (now : Z) (o : mop) (c : mcache) : mcache * seen :=
  match o with
  | MOpen n k => match copen limit n k c with (c', Ok _) => (c', Opened) | (c', Raise e) => (c', OpenErr e) end
  | MCall n cl => match lookup n c with
                  | Some f => let (f', a) := mcall now cl f in (store n f' c, Answer a)
                  | None => (c, NoFile)
                  end
  | MClose n => match lookup n c with Some f => (store n (mclose f) c, Closed) | None => (c, NoFile) end
  | MRemove n => (filter (fun x => negb (fst x =? n)) c, Closed)         (* 447-460 *)
  end.
Fixpoint mrun (limit : option Z) (l : list (Z * mop)) (c : mcache) : mcache * list seen :=
  match l with
  | [] => (c, [])
  | (now, o) :: r => let (c1, a) := mstep limit now o c in let (c2, as_) := mrun limit r c1 in (c2, a :: as_)
  end.
(** getsize (462-477), getmtime (479-494: a namedtuple cannot be indexed by a string). *)
Definition cgetsize (n : nat) (c : mcache) : res Z :=
  match lookup n c with Some f => Ok (Z.of_nat (length (f_data f))) | None => Raise OSError end.
Definition cgetmtime (n : nat) (c : mcache) : res Z :=
  match lookup n c with Some _ => Raise TypeError | None => Raise OSError end.
