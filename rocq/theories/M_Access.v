(** Model of the data cache of lsl/common/data_access.py: download_file and _DataAccess.fetch_data_file, for one file name.
    The file "<name>_meta" is not modelled (it is never read).  The lock of the cache and its size limit (0 here: none) are those of M_Cache and M_Lock. *)
From Coq Require Import List ZArith Bool.
From Verif Require Import LibList M_Py.
Import ListNotations.
Open Scope Z_scope.

(** The file in the cache: its bytes and modification time; None: not there *)
Notation store := (option (list Z * Z)).
(** One block of a transfer (128-136): its length on the wire, and the bytes written, which are different for a compressed transfer *)
Notation block := (Z * list Z)%type.
(** How a transfer goes (106-152): the server's data end (at the end of the file or because the connection is closed early: urllib's read(n) gives b'' for both);
    an IOError or time-out; any other exception, for example TypeError if the server does not say the length (111). *)
Inductive transfer := Ends (l : list block) | Breaks (l : list block) | Fails (e : exn) (l : list block).
Definition blocks (t : transfer) : list block := match t with Ends l => l | Breaks l => l | Fails _ l => l end.
(** Opening for writing and writing block after block: the states of the file one after the other *)
Fixpoint grow (now : Z) (have : list Z) (l : list block) : list store :=
  match l with [] => [] | (_, d) :: l => Some (have ++ d, now) :: grow now (have ++ d) l end.
Definition filled (now : Z) (l : list block) : list store := Some ([], now) :: grow now [] l.
Definition received (l : list block) : Z := fold_right (fun b s => fst b + s) 0 l.
(** What a step leaves behind: its result and the states the file went through; the last one is where it ends. *)
Notation steps A := (res A * list store)%type.
(** download_file on the file opened (71-157) and _download_worker (237-269) *)
Definition download (now : Z) (t : transfer) : steps bool :=
  match t with
  | Fails e l => (Raise e, filled now l)
  | Breaks l => (Ok false, filled now l ++ [None])
  | Ends l => if received l <? 3 then (Ok false, filled now l ++ [None]) else (Ok true, filled now l)
  end.
(** data = uh.read(block_size) until it is empty (203-209) *)
Fixpoint cut (n : nat) (size : nat) (d : list Z) : list block :=
  match n with
  | O => []
  | S n => match d with [] => [] | _ => (zlen (firstn size d), firstn size d) :: cut n size (skipn size d) end
  end.
(** _local_copy_worker (189-225) *)
Definition local_copy (now : Z) (size : nat) (local : option (list Z * Z)) : steps bool :=
  match local with
  | Some (d, _) => let l := cut (length d) size d in if received l <? 3 then (Ok false, filled now l ++ [None]) else (Ok true, filled now l)
  | None => (Ok false, [None])
  end.
Definition then_if_not (a b : steps bool) : steps bool :=
  match a with
  | (Ok false, l) => (fst b, l ++ snd b)
  | _ => a
  end.
(** The first half of fetch_data_file (278-287): the file is not in the cache *)
Definition fetch_new (now : Z) (size : nat) (local : option (list Z * Z)) (primary backup : transfer) : steps unit :=
  match then_if_not (local_copy now size local) (then_if_not (download now primary) (download now backup)) with
  | (Ok true, l) => (Ok tt, l)
  | (Ok false, l) => (Raise RuntimeError, l)
  | (Raise e, l) => (Raise e, l)
  end.
(** fetch_data_file (271-305).  [remote1], [remote2]: modification times the two servers tell, 0 if they do not (check_url, 30-68) *)
Definition fetch (now : Z) (refresh_age : Z) (size : nat) (local : option (list Z * Z)) (remote1 remote2 : Z) (primary backup : transfer) (s : store) : steps unit :=
  match s with
  | None => fetch_new now size local primary backup
  | Some (_, cache_mtime) =>
      if refresh_age * 86400 <? now - cache_mtime then
        let local_mtime := match local with Some (_, t) => t | None => 0 end in
        let remote_mtime := if remote1 =? 0 then remote2 else remote1 in
        if cache_mtime <? Z.max local_mtime remote_mtime then
          let (r, l) := fetch_new now size local primary backup in (r, None :: l)
        else (Ok tt, [])
      else (Ok tt, [])
  end.
(** The file afterwards *)
Definition after (s : store) (l : list store) : store := last l s.
