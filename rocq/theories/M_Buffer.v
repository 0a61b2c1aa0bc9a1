(** Model of lsl/reader/buffer.py: the generic frame buffer (FrameBufferBase). *)
From Coq Require Import List ZArith Bool.
From Verif Require Export M_Py.
Import ListNotations.
Open Scope Z_scope.

(** Identifiers are Python tuples or scalars of integers; both are [list Z]
    here (a scalar is a one element list). *)
Fixpoint id_eqb (a b : list Z) : bool :=
  match a, b with
  | [], [] => true
  | x :: a', y :: b' => (x =? y) && id_eqb a' b'
  | _, _ => false
  end.

(** [x in l] on identifiers. *)
Definition id_in (x : list Z) (l : list (list Z)) : bool := existsb (id_eqb x) l.

(** set(l) as a duplicate free list.  Simplification: Python's set iteration
    order is unspecified; we keep the order of first occurrence from the right.
    Theorems about the result are up to permutation. *)
Fixpoint id_set (l : list (list Z)) : list (list Z) :=
  match l with
  | [] => []
  | x :: r => if id_in x r then id_set r else x :: id_set r
  end.

(** What a concrete buffer class (DRX, DRX8, COR, VDIF, TBX) provides:
    [o_fom]   get_figure_of_merit
    [o_mid]   the identifier used in _get_missing_list (buffer.py 392-404)
    [o_did]   the identifier used to detect duplicates (buffer.py 327-335)
    [o_cmp]   the integer compared by _cmp_frames (buffer.py 45-79)
    [o_fill]  create_fill applied to the template frame buffer[key][0]
    [o_valid] frame.valid *)
Record ops (F : Type) := mkOps {
  o_fom : F -> Z;
  o_mid : F -> list Z;
  o_did : F -> list Z;
  o_cmp : F -> Z;
  o_fill : F -> list Z -> F;
  o_valid : F -> bool
}.
Arguments o_fom {F}. Arguments o_mid {F}. Arguments o_did {F}.
Arguments o_cmp {F}. Arguments o_fill {F}. Arguments o_valid {F}.

(** Configuration fixed at construction (buffer.py 100-174):
    nsegments, reorder, nFrames, possibleFrames (already a set). *)
Record cfg := mkCfg {
  c_nseg : nat;
  c_reorder : bool;
  c_nframes : nat;
  c_possible : list (list Z)
}.

(** Mutable state (buffer.py 148-157). [s_buf] is the OrderedDict in insertion
    order; [s_done] is the deque, most recent element last. *)
Record st (F : Type) := mkSt {
  s_buf : list (Z * list F);
  s_done : list Z;
  s_full : Z; s_partial : Z; s_dropped : Z; s_missing : Z
}.
Arguments mkSt {F}. Arguments s_buf {F}. Arguments s_done {F}.
Arguments s_full {F}. Arguments s_partial {F}. Arguments s_dropped {F}. Arguments s_missing {F}.

(** collections.deque(maxlen=n).append: the oldest element falls off the left
    when full; with maxlen 0 nothing is ever stored. *)
Definition deque_append (n : nat) (d : list Z) (x : Z) : list Z :=
  match n with
  | 0%nat => []
  | S _ => if Nat.leb n (length d) then tl d ++ [x] else d ++ [x]
  end.

(** deque[-1]; None is Python's IndexError. *)
Fixpoint deque_last (d : list Z) : option Z :=
  match d with
  | [] => None
  | [x] => Some x
  | _ :: r => deque_last r
  end.

(** self.buffer[key]; None is Python's KeyError. *)
Fixpoint lookup {F} (k : Z) (b : list (Z * list F)) : option (list F) :=
  match b with
  | [] => None
  | (k', l) :: r => if k =? k' then Some l else lookup k r
  end.

(** buffer.py 257-261: append to an existing entry or create it at the end. *)
Fixpoint add_frame {F} (k : Z) (f : F) (b : list (Z * list F)) : list (Z * list F) :=
  match b with
  | [] => [(k, [f])]
  | (k', l) :: r => if k =? k' then (k', l ++ [f]) :: r else (k', l) :: add_frame k f r
  end.

(** del self.buffer[key] (buffer.py 338). *)
Fixpoint remove_key {F} (k : Z) (b : list (Z * list F)) : list (Z * list F) :=
  match b with
  | [] => []
  | (k', l) :: r => if k =? k' then r else (k', l) :: remove_key k r
  end.

Definition keys {F} (b : list (Z * list F)) : list Z := map fst b.

(** min(keys); None is Python's ValueError for an empty list (buffer.py 285-291). *)
Fixpoint min_key (l : list Z) : option Z :=
  match l with
  | [] => None
  | x :: r => match min_key r with None => Some x | Some y => Some (Z.min x y) end
  end.

Section Buffer.
Context {F : Type} (M : ops F) (C : cfg).

(** FrameBufferBase.__init__ (buffer.py 148-157); [floor] is the value of
    done[0] after construction: 0 for the base class, 61849368000000000 for
    DRX/DRX8 (buffer.py 489, 593). With nsegments = 0 the deque is empty. *)
Definition init (floor : Z) : st F :=
  mkSt [] (match c_nseg C with 0%nat => [] | _ => [floor] end) 0 0 0 0.

(** FrameBufferBase.append for one frame (buffer.py 247-261). *)
Definition append_one (s : st F) (f : F) : res (st F) :=
  match deque_last (s_done s) with
  | None => Raise IndexError
  | Some d =>
      if o_fom M f <=? d then
        Ok (mkSt (s_buf s) (s_done s) (s_full s) (s_partial s) (s_dropped s + 1) (s_missing s))
      else
        Ok (mkSt (add_frame (o_fom M f) f (s_buf s)) (s_done s)
                 (s_full s) (s_partial s) (s_dropped s) (s_missing s))
  end.

(** FrameBufferBase.append over a deque/list of frames (buffer.py 229-263). *)
Fixpoint append (s : st F) (fs : list F) : res (st F) :=
  match fs with
  | [] => Ok s
  | f :: r => match append_one s f with Ok s' => append s' r | Raise e => Raise e end
  end.

(** filled / overfilled (buffer.py 176-194). *)
Definition filled (s : st F) : bool := negb (Nat.ltb (length (s_buf s)) (c_nseg C)).
Definition overfilled (s : st F) : bool := Nat.ltb (c_nseg C) (length (s_buf s)).

(** FrameBufferBase.peek (buffer.py 272-291). *)
Definition peek (require_filled : bool) (s : st F) : option Z :=
  if require_filled && negb (filled s) then None else min_key (keys (s_buf s)).

(** _get_missing_list (buffer.py 387-410): possibleFrames.difference(present). *)
Definition missing_list (l : list F) : list (list Z) :=
  filter (fun i => negb (id_in i (map (o_mid M) l))) (c_possible C).

(** The duplicate filter of an over-full entry (buffer.py 321-336):
    returns the kept frames and the number dropped. *)
Fixpoint dedupe (seen : list (list Z)) (l : list F) : list F * Z :=
  match l with
  | [] => ([], 0)
  | f :: r =>
      if id_in (o_did M f) seen then
        let (o, n) := dedupe seen r in (o, n + 1)
      else
        let (o, n) := dedupe (seen ++ [o_did M f]) r in (f :: o, n)
  end.

(** list.sort(key=cmp_to_key(_cmp_frames)) (buffer.py 341-345): Python's sort is
    stable; modelled as stable insertion sort on the compared integer. *)
Fixpoint insert_stable (f : F) (l : list F) : list F :=
  match l with
  | [] => [f]
  | g :: r => if o_cmp M f <=? o_cmp M g then f :: g :: r else g :: insert_stable f r
  end.
Fixpoint sort_stable (l : list F) : list F :=
  match l with [] => [] | f :: r => insert_stable f (sort_stable r) end.

(** FrameBufferBase.get (buffer.py 293-345). [None] is key_to_return=None. *)
Definition get_key (s : st F) (k : Z) : res (st F * list F) :=
  match lookup k (s_buf s) with
  | None => Raise KeyError
  | Some l =>
      let n := length l in
      let '(out, full', partial', dropped', missing') :=
        if Nat.eqb n (c_nframes C) then
          (l, s_full s + 1, s_partial s, s_dropped s, s_missing s)
        else if Nat.ltb n (c_nframes C) then
          (l ++ match l with
                | [] => []   (* an entry is never empty, see P_Buffer *)
                | t :: _ => map (o_fill M t) (missing_list l)
                end,
           s_full s, s_partial s + 1, s_dropped s,
           s_missing s + Z.of_nat (c_nframes C - n))
        else
          let (o, d) := dedupe [] l in
          (o, s_full s + 1, s_partial s, s_dropped s + d, s_missing s) in
      Ok (mkSt (remove_key k (s_buf s)) (deque_append (c_nseg C) (s_done s) k)
               full' partial' dropped' missing',
          if c_reorder C then sort_stable out else out)
  end.

Definition get (s : st F) : res (st F * option (list F)) :=
  match peek true s with
  | None => Ok (s, None)
  | Some k => match get_key s k with
              | Ok (s', o) => Ok (s', Some o)
              | Raise e => Raise e
              end
  end.

(** FrameBufferBase.flush (buffer.py 347-364): a generator over the keys present
    when it is started; [flush_keys] consumes it for the given keys. *)
Fixpoint flush_keys (s : st F) (ks : list Z) : res (st F * list (list F)) :=
  match ks with
  | [] => Ok (s, [])
  | k :: r =>
      match get_key s k with
      | Raise e => Raise e
      | Ok (s', o) => match flush_keys s' r with
                      | Ok (s'', os) => Ok (s'', o :: os)
                      | Raise e => Raise e
                      end
      end
  end.
Definition flush (s : st F) : res (st F * list (list F)) := flush_keys s (keys (s_buf s)).

(** FrameBufferBase.reset (buffer.py 366-375): counters are kept. *)
Definition reset (s : st F) : st F :=
  mkSt [] (deque_append (c_nseg C) [] 0) (s_full s) (s_partial s) (s_dropped s) (s_missing s).

(** is_empty (buffer.py 377-385). *)
Definition is_empty (s : st F) : bool := match s_buf s with [] => true | _ => false end.

(** Histories of the public interface. *)
Inductive op := OAppend (fs : list F) | OGet | OFlush | OReset.

(** One operation; the output is the list of frame sets it returned. *)
Definition step (s : st F) (o : op) : res (st F * list (list F)) :=
  match o with
  | OAppend fs => match append s fs with Ok s' => Ok (s', []) | Raise e => Raise e end
  | OGet => match get s with
            | Ok (s', None) => Ok (s', [])
            | Ok (s', Some l) => Ok (s', [l])
            | Raise e => Raise e
            end
  | OFlush => flush s
  | OReset => Ok (reset s, [])
  end.

(** A whole history: final state and all frame sets returned, in order. *)
Fixpoint run (s : st F) (os : list op) : res (st F * list (list F)) :=
  match os with
  | [] => Ok (s, [])
  | o :: r =>
      match step s o with
      | Raise e => Raise e
      | Ok (s', out) => match run s' r with
                        | Raise e => Raise e
                        | Ok (s'', out') => Ok (s'', out ++ out')
                        end
      end
  end.
End Buffer.
Arguments OAppend {F}. Arguments OGet {F}. Arguments OFlush {F}. Arguments OReset {F}.
