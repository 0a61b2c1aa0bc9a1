(** Model of lsl/misc/file_lock.py: processes, threads and the lock file, one system call at a time. *)
From Coq Require Import List Arith Bool ZArith.
From Verif Require Export M_Py.
Import ListNotations.

(** Where a FileLock object is in acquire() / release() (file_lock.py 46-114).  [Idle]: _locked is
    False and no file handle; [Opened i]: after open(self._lockname, 'a+') (55) with inode [i];
    [Flocked i]: after a successful flock (63); [Held i]: _locked is True. *)
Inductive phase := Idle | Opened (i : nat) | Flocked (i : nat) | Held (i : nat).

(** [path]: the inode the lock file's name stands for; [fresh]: the next new inode; [flock i]: the object
    whose open file description has the exclusive flock on inode [i]; [users c]: the threads whose acquire()
    on object [c] returned True, once for every acquire() without a release() yet. *)
Record lock_st := mkL { path : option nat; fresh : nat; flock : nat -> option nat; pc : nat -> phase; users : nat -> list nat }.

Definition upd {A} (m : nat -> A) (k : nat) (v : A) : nat -> A := fun j => if j =? k then v else m j.

(** The steps; [c] is a FileLock object, [t] a thread.  The thread identifiers in the file are not
    modelled: open(..., 'a+') leaves the position at the end of the file, so fh.read() is '' and
    owner_ident is 0, which is nobody's identifier (57-61).  Simplification: one acquire() at a time is under way
    on an object; a retry (101) is a new [AOpen].  When the name is gone, os.stat raises FileNotFoundError out of
    acquire() (68, 90); the state is the same as for a retry. *)
Inductive act :=
  | AOpen (c : nat) | AFlock (c : nat) | ACheck (c t : nat)
  | AJoin (c t : nat)        (* acquire() by thread t while _locked is True (51) *)
  | ARelease (c t : nat)     (* release() (105-114) *)
  | ACrash (c : nat)         (* the process of object c dies *)
  | AUnlink.                 (* somebody removes the lock file *)

(** Closing the handle of [c] releases its flock. *)
Definition drop_flock (c : nat) (fl : nat -> option nat) : nat -> option nat :=
  fun i => match fl i with Some c' => if c' =? c then None else Some c' | None => None end.

(** One release() ends one acquire(). *)
Fixpoint remove1 (t : nat) (l : list nat) : list nat :=
  match l with [] => [] | u :: r => if u =? t then r else u :: remove1 t r end.

Definition step (a : act) (s : lock_st) : lock_st :=
  match a with
  | AOpen c =>
      match pc s c with
      | Idle => match path s with
                | Some i => mkL (path s) (fresh s) (flock s) (upd (pc s) c (Opened i)) (users s)
                | None => mkL (Some (fresh s)) (S (fresh s)) (flock s) (upd (pc s) c (Opened (fresh s))) (users s)
                end
      | _ => s
      end
  | AFlock c =>          (* 63; EAGAIN closes the handle (88) *)
      match pc s c with
      | Opened i => match flock s i with
                    | None => mkL (path s) (fresh s) (upd (flock s) i (Some c)) (upd (pc s) c (Flocked i)) (users s)
                    | Some _ => mkL (path s) (fresh s) (flock s) (upd (pc s) c Idle) (users s)
                    end
      | _ => s
      end
  | ACheck c t =>        (* 65-85: the name must still stand for the inode; otherwise close *)
      match pc s c with
      | Flocked i =>
          match path s with
          | Some j => if j =? i then mkL (path s) (fresh s) (flock s) (upd (pc s) c (Held i)) (upd (users s) c (t :: users s c))
                      else mkL (path s) (fresh s) (drop_flock c (flock s)) (upd (pc s) c Idle) (users s)
          | None => mkL (path s) (fresh s) (drop_flock c (flock s)) (upd (pc s) c Idle) (users s)
          end
      | _ => s
      end
  | AJoin c t =>
      match pc s c with
      | Held _ => mkL (path s) (fresh s) (flock s) (pc s) (upd (users s) c (t :: users s c))
      | _ => s
      end
  | ARelease c t =>
      match pc s c with
      | Held _ => mkL (path s) (fresh s) (drop_flock c (flock s)) (upd (pc s) c Idle) (upd (users s) c (remove1 t (users s c)))
      | _ => s
      end
  | ACrash c => mkL (path s) (fresh s) (drop_flock c (flock s)) (upd (pc s) c Idle) (upd (users s) c [])
  | AUnlink => mkL None (fresh s) (flock s) (pc s) (users s)
  end.
Definition run (l : list act) (s : lock_st) : lock_st := fold_left (fun s a => step a s) l s.
Definition start : lock_st := mkL None 0 (fun _ => None) (fun _ => Idle) (fun _ => []).

(** What acquire() gives to its caller (file_lock.py 46-103).  [l]: what happened to the attempts made;
    an attempt that fails in open() the first time
    has no handle to close (88).  [patience]: how many attempts fit in the timeout. *)
Inductive attempt := Success | Again | OpenFails | OtherError.
Fixpoint acquire (first blocking : bool) (patience : nat) (l : list attempt) {struct l} : res bool :=
  match l with
  | [] => Ok false
  | Success :: _ => Ok true
  | OpenFails :: _ => if first then Raise NameError else Raise OSError   (* UnboundLocalError *)
  | OtherError :: _ => Raise OSError
  | Again :: r => if blocking then match patience with O => Ok false | S k => acquire false blocking k r end
                  else Ok false
  end.
(** "with FileLock(...)": __enter__ (36-38) does not look at what acquire() returned; true: the body runs. *)
Definition with_body_runs (r : res bool) : res bool := bind r (fun _ => Ok true).

(** ** MemoryLock (file_lock.py 117-141) *)
(** The RLock's owner and count, the _locked flag, and how many acquire() calls of each thread returned
    True without a release() yet. *)
Record mlock := mkM { owner : option (nat * nat); flag : bool; inside : nat -> nat }.
Inductive mact :=
  | MAcquire (t : nat)       (* returns; waits (no step) while another thread has it *)
  | MTimeout (t : nat)       (* acquire() gives up after the timeout: returns False *)
  | MRelease (t : nat).      (* RuntimeError, and no effect, when t is not the owner *)
Definition mstep (a : mact) (m : mlock) : mlock :=
  match a with
  | MAcquire t =>
      match owner m with
      | None => mkM (Some (t, 1)) true (upd (inside m) t (S (inside m t)))
      | Some (o, n) => if o =? t then mkM (Some (o, S n)) true (upd (inside m) t (S (inside m t))) else m
      end
  | MTimeout t => match owner m with Some (o, _) => if o =? t then m else mkM (owner m) false (inside m) | None => m end
  | MRelease t =>
      match owner m with
      | Some (o, n) => if o =? t then mkM (match n with S (S k) => Some (o, S k) | _ => None end) false (upd (inside m) t (pred (inside m t)))
                       else m
      | None => m
      end
  end.
Definition mrun (l : list mact) (m : mlock) : mlock := fold_left (fun m a => mstep a m) l m.
Definition mstart : mlock := mkM None false (fun _ => 0).
(** acquire(blocking=False): RLock.acquire(False, 120) is a ValueError, which is not caught (133-136). *)
Definition macquire_nonblocking : res bool := Raise ValueError.
(** "self._lock.acquire(); assert(self._lock.locked())" (file_cache.py 393-394): the flag is the one of
    some later state. *)
Definition cache_enter (m : mlock) : res unit := if flag m then Ok tt else Raise AssertionError.
