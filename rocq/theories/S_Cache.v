(** What a cache and a file promise. *)
From Coq Require Import List Arith ZArith Bool Permutation.
From Verif Require Import M_Cache.
Import ListNotations.

(** ** The files of a directory *)
Definition names (es : list entry) : list nat := map e_name es.
(** The listing of a directory has every name once; its order is arbitrary. *)
Definition listing (order : list entry -> list entry) : Prop := forall l, Permutation (order l) l.
(** Every operation lists the directory in some order, and only adds to files. *)
Definition proper (o : fop) : Prop :=
  match o with FOpenW _ _ r | FOpenA _ _ r | FOpenSub _ _ _ r => listing r | FWrite _ k _ => (0 <= k)%Z | _ => True end.
(** No directories are made in the cache. *)
Definition flat (o : fop) : Prop := match o with FOpenSub _ _ _ _ => False | _ => True end.

(** ** Ordinary files (POSIX), one handle per name at a time, opened in binary mode *)
Record fs := mkS { content : nat -> option (list Z); handle : nat -> option (kind * nat) }.
Definition set {B} (m : nat -> B) (n : nat) (b : B) : nat -> B := fun k => if k =? n then b else m k.
Definition no_files : fs := mkS (fun _ => None) (fun _ => None).
(** The data from position [p] on. *)
Definition rest (d : list Z) (p : nat) : list Z := skipn p d.
(** Writing [s] at [p]: byte [i] is s[i-p] inside the written stretch, the old byte outside, 0 in a gap. *)
Definition written (d s : list Z) (p : nat) : list Z :=
  match s with
  | [] => d
  | _ => map (fun i => if (p <=? i) && (i <? p + length s) then nth (i - p) s 0%Z else nth i d 0%Z)
             (seq 0 (Nat.max (length d) (p + length s)))
  end.
(** The first line: up to and with the first newline, everything when there is none. *)
Fixpoint newline_at (d : list Z) : option nat :=
  match d with [] => None | b :: r => if (b =? 10)%Z then Some 0 else option_map S (newline_at r) end.
Definition line (d : list Z) : list Z := match newline_at d with Some i => firstn (S i) d | None => d end.
(** All lines, each with its newline. *)
Fixpoint lines_of (fuel : nat) (d : list Z) : list (list Z) :=
  match fuel, d with
  | S k, _ :: _ => let l := line d in l :: lines_of k (skipn (length l) d)
  | _, _ => []
  end.
Definition target (d : list Z) (p : nat) (off whence : Z) : Z :=
  (if whence =? 0 then off else if whence =? 1 then Z.of_nat p + off else Z.of_nat (length d) + off)%Z.
Definition file_call (c : call) (d : list Z) (p : nat) : list Z * nat * answer :=
  match c with
  | Read n => let b := if (n <? 0)%Z then rest d p else firstn (Z.to_nat n) (rest d p) in (d, p + length b, Bytes b)
  | ReadLine => let b := line (rest d p) in (d, p + length b, Bytes b)
  | Write s => (written d s p, p + length s, Num (Z.of_nat (length s)))
  | Seek off w => (d, Z.to_nat (target d p off w), Num (target d p off w))
  | Tell => (d, p, Num (Z.of_nat p))
  | Truncate n => let n' := match n with Some n => Z.to_nat n | None => p end in
                  (firstn n' d ++ repeat 0%Z (n' - length d), p, Num (Z.of_nat n'))
  | Flush => (d, p, Nothing)
  | Iterate => (d, length d, Lines (lines_of (length d) (rest d p)))
  end.
(** Writes in append mode go to the end. *)
Definition write_pos (k : kind) (c : call) (d : list Z) (p : nat) : nat := match k, c with A, Write _ => length d | _, _ => p end.
Definition file_step (o : mop) (s : fs) : fs * seen :=
  match o with
  | MOpen n k =>
      match k, content s n with
      | R, None => (s, OpenErr OSError)
      | W, _ | A, None => (mkS (set (content s) n (Some [])) (set (handle s) n (Some (k, 0))), Opened)
      | A, Some d => (mkS (content s) (set (handle s) n (Some (k, length d))), Opened)
      | R, Some _ => (mkS (content s) (set (handle s) n (Some (k, 0))), Opened)
      end
  | MCall n c =>
      match handle s n, content s n with
      | Some (k, p), Some d => let '(d', p', a) := file_call c d (write_pos k c d p) in
                               (mkS (set (content s) n (Some d')) (set (handle s) n (Some (k, p'))), Answer a)
      | _, _ => (s, NoFile)
      end
  | MClose n => (mkS (content s) (set (handle s) n None), Closed)
  | MRemove n => (mkS (set (content s) n None) (handle s), Closed)
  end.
Fixpoint file_run (l : list (Z * mop)) (s : fs) : fs * list seen :=
  match l with
  | [] => (s, [])
  | (_, o) :: r => let (s1, a) := file_step o s in let (s2, as_) := file_run r s1 in (s2, a :: as_)
  end.

(** A program that opens files that are not open, reads only files that exist, uses a handle as its mode
    allows, does not seek before the start, does not extend a file by truncate, does not iterate, removes only closed files,
    and does not use append mode. *)
Definition ordinary (o : mop) (s : fs) : Prop :=
  match o with
  | MOpen n k => handle s n = None /\ match k with R => content s n <> None | W => True | A => False end
  | MCall n c =>
      match handle s n, content s n with
      | Some (k, p), Some d =>
          match c with
          | Read _ | ReadLine => k = R
          | Write _ => k = W
          | Seek off w => (w = 0 \/ w = 1 \/ w = 2)%Z /\ (0 <= target d p off w)%Z
          | Truncate (Some n) => k = W /\ (0 <= n <= Z.of_nat (length d))%Z
          | Truncate None => k = W /\ p <= length d
          | Tell | Flush => True
          | Iterate => False
          end
      | _, _ => False
      end
  | MClose n => handle s n <> None
  | MRemove n => handle s n = None
  end.
Fixpoint ordinary_run (l : list (Z * mop)) (s : fs) : Prop :=
  match l with [] => True | (_, o) :: r => ordinary o s /\ ordinary_run r (fst (file_step o s)) end.
(** seek() of a memory file returns None. *)
Definition forget_seek (o : mop) (a : seen) : seen := match o with MCall _ (Seek _ _) => Answer Nothing | _ => a end.
Definition expected (l : list (Z * mop)) (s : fs) : list seen := map (fun x => forget_seek (fst x) (snd x)) (combine (map snd l) (snd (file_run l s))).
