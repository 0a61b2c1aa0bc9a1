(** Model of lsl/logger.py: levels, handlers, filters, and what is written where.  The parts of Python's logging module that it calls are modelled with it:
    Logger.log, Logger.handle, addHandler, removeHandler and the last resort when there is no handler.
    Simplifications: the root logger has no handlers and the level WARNING; logging.disable() is not used; the warnings module shows every warning; a record is its level, the name of its logger and its message
    (the time and the format are left out); a pattern has no [...]. *)
From Coq Require Import List ZArith Bool.
From Verif Require Import M_Py M_Str.
Import ListNotations.
Open Scope Z_scope.

(** A message: that of the caller, or the warning of enable_file_logging (205) with the old and the new file *)
Inductive message := Says (s : str) | Switching (old new : str).
Record record := mkRec { c_level : Z; c_name : str; c_msg : message }.
(** Handler objects: the one made at import (45-47), those of enable_console_logging and enable_file_logging (each call makes a new one), and those of the user *)
Inductive hid := HDefault | HConsole (n : Z) | HFile (n : Z) | HUser (n : Z).
Definition hid_eqb (a b : hid) : bool :=
  match a, b with HDefault, HDefault => true | HConsole n, HConsole m => n =? m | HFile n, HFile m => n =? m | HUser n, HUser m => n =? m | _, _ => false end.
(** Where handlers write: a stream (0 is sys.stderr), a file, what the user's handler does with it *)
Inductive sink := Stream (n : Z) | File (f : str) | User (n : Z).
Record handler := mkH { h_id : hid; h_level : Z; h_to : sink }.
(** LSL_LOGGER (level, handlers, filters by their patterns), _active_filters (its keys), _console_handler, _file_handler, whether warnings are captured, and what was written *)
Record logger := mkL { g_level : Z; g_handlers : list handler; g_filters : list str; g_active : list str; g_console : option hid; g_file : option (hid * str); g_capture : bool; g_next : Z;
  g_streams : Z -> list record; g_files : str -> list record; g_user : Z -> list record }.

(** fnmatch.fnmatch for '*' and '?' *)
Fixpoint fnmatch (p : str) : str -> bool :=
  match p with
  | [] => fun s => match s with [] => true | _ => false end
  | c :: p =>
      if c =? 42 then fix star (s : str) : bool := fnmatch p s || match s with [] => false | _ :: s => star s end
      else fun s => match s with [] => false | x :: s => ((c =? 63) || (x =? c)) && fnmatch p s end
  end.

Definition own_name : str := [108; 115; 108; 95; 108; 111; 103; 103; 101; 114].   (* 'lsl_logger', 32 *)
Definition warn_name : str := [112; 121; 46; 119; 97; 114; 110; 105; 110; 103; 115].   (* 'py.warnings', 141 *)

Definition with_out (st : Z -> list record) (fs : str -> list record) (us : Z -> list record) (g : logger) : logger :=
  mkL (g_level g) (g_handlers g) (g_filters g) (g_active g) (g_console g) (g_file g) (g_capture g) (g_next g) st fs us.
Definition upd_z {A} (n : Z) (f : list A -> list A) (w : Z -> list A) : Z -> list A := fun m => if m =? n then f (w m) else w m.
Definition upd_s {A} (n : str) (f : list A -> list A) (w : str -> list A) : str -> list A := fun m => if str_eqb m n then f (w m) else w m.
(** Handler.emit *)
Definition put_record (r : record) (s : sink) (g : logger) : logger :=
  let add l := l ++ [r] in
  match s with
  | Stream n => with_out (upd_z n add (g_streams g)) (g_files g) (g_user g) g
  | File f => with_out (g_streams g) (upd_s f add (g_files g)) (g_user g) g
  | User n => with_out (g_streams g) (g_files g) (upd_z n add (g_user g)) g
  end.
(** Logger.callHandlers; logging.lastResort (stderr, WARNING) if there is none *)
Definition emit (r : record) (h : handler) (g : logger) : logger := if h_level h <=? c_level r then put_record r (h_to h) g else g.
Definition call_handlers (r : record) (g : logger) : logger :=
  match g_handlers g with
  | [] => if 30 <=? c_level r then put_record r (Stream 0) g else g
  | hs => fold_left (fun g h => emit r h g) hs g
  end.
(** Logger.handle with the filters of _ModuleFilter (232-247): all have to pass *)
Definition handle (r : record) (g : logger) : logger := if forallb (fun p => fnmatch p (c_name r)) (g_filters g) then call_handlers r g else g.
(** Logger.log; make_note is one with level NOTE (57-65).  A logger at level 0 takes that of the root logger. *)
Definition log (level : Z) (m : message) (g : logger) : logger :=
  if (if g_level g =? 0 then 30 else g_level g) <=? level then handle (mkRec level own_name m) g else g.
(** warnings.warn: to stderr by Python itself (not modelled), or, if captured, by way of py.warnings to _WarningHandler.emit (125-137), which calls LSL_LOGGER.handle *)
Definition warn (m : message) (g : logger) : logger := if g_capture g then handle (mkRec 30 warn_name m) g else g.

Definition with_handlers (hs : list handler) (g : logger) : logger :=
  mkL (g_level g) hs (g_filters g) (g_active g) (g_console g) (g_file g) (g_capture g) (g_next g) (g_streams g) (g_files g) (g_user g).
(** Logger.addHandler, Logger.removeHandler *)
Definition add_h (h : handler) (g : logger) : logger := if existsb (fun x => hid_eqb (h_id x) (h_id h)) (g_handlers g) then g else with_handlers (g_handlers g ++ [h]) g.
Fixpoint without (i : hid) (l : list handler) : list handler := match l with [] => [] | h :: l => if hid_eqb (h_id h) i then l else h :: without i l end.
Definition remove_h (i : hid) (g : logger) : logger := with_handlers (without i (g_handlers g)) g.

Definition set_console (c : option hid) (next : Z) (g : logger) : logger :=
  mkL (g_level g) (g_handlers g) (g_filters g) (g_active g) c (g_file g) (g_capture g) next (g_streams g) (g_files g) (g_user g).
Definition set_file (f : option (hid * str)) (next : Z) (g : logger) : logger :=
  mkL (g_level g) (g_handlers g) (g_filters g) (g_active g) (g_console g) f (g_capture g) next (g_streams g) (g_files g) (g_user g).
Definition set_filters (fs act : list str) (g : logger) : logger :=
  mkL (g_level g) (g_handlers g) fs act (g_console g) (g_file g) (g_capture g) (g_next g) (g_streams g) (g_files g) (g_user g).
(** set_log_level (68-76) *)
Definition set_level (n : Z) (g : logger) : logger :=
  mkL n (g_handlers g) (g_filters g) (g_active g) (g_console g) (g_file g) (g_capture g) (g_next g) (g_streams g) (g_files g) (g_user g).
(** capture_warnings (147-153) *)
Definition set_capture (b : bool) (g : logger) : logger :=
  mkL (g_level g) (g_handlers g) (g_filters g) (g_active g) (g_console g) (g_file g) b (g_next g) (g_streams g) (g_files g) (g_user g).
Definition level_of (o : option Z) : Z := match o with Some n => n | None => 0 end.
(** enable_console_logging (156-179), disable_console_logging (182-191) *)
Definition enable_console (level : option Z) (stream : Z) (g : logger) : logger :=
  let g := match g_console g with Some i => remove_h i g | None => g end in
  let n := g_next g in add_h (mkH (HConsole n) (level_of level) (Stream stream)) (set_console (Some (HConsole n)) (n + 1) g).
Definition disable_console (g : logger) : logger := match g_console g with Some i => set_console None (g_next g) (remove_h i g) | None => g end.
(** enable_file_logging (194-216): [ok] is false if the file cannot be opened, which raises OSError after the file before was closed; [fresh] is mode 'w' *)
Definition enable_file (f : str) (level : option Z) (fresh ok : bool) (g : logger) : res unit * logger :=
  let g := match g_file g with Some (i, old) => remove_h i (warn (Switching old f) g) | None => g end in
  if negb ok then (Raise OSError, g) else
  let n := g_next g in
  let g := if fresh then with_out (g_streams g) (upd_s f (fun _ => []) (g_files g)) (g_user g) g else g in
  (Ok tt, add_h (mkH (HFile n) (level_of level) (File f)) (set_file (Some (HFile n, f)) (n + 1) g)).
(** disable_file_logging (219-229) *)
Definition disable_file (g : logger) : logger := match g_file g with Some (i, _) => set_file None (g_next g) (remove_h i g) | None => g end.
(** add_filter, remove_filter, clear_filters (250-288) *)
Fixpoint drop (p : str) (l : list str) : list str := match l with [] => [] | q :: l => if str_eqb q p then l else q :: drop p l end.
Definition add_filter (p : str) (g : logger) : logger := if existsb (str_eqb p) (g_active g) then g else set_filters (g_filters g ++ [p]) (g_active g ++ [p]) g.
Definition remove_filter (p : str) (g : logger) : logger := if existsb (str_eqb p) (g_active g) then set_filters (drop p (g_filters g)) (drop p (g_active g)) g else g.
Definition clear_filters (g : logger) : logger := set_filters (fold_left (fun fs p => drop p fs) (g_active g) (g_filters g)) [] g.

(** The calls.  AddHandler and RemoveHandler (101-122) are for a handler of the user's, such as a ThreadedHandler (89-98), with the level 0; RemoveDefault takes away the one made at import. *)
Inductive op := Log (level : Z) (m : str) | Warn (m : str) | SetLevel (n : Z) | Capture (b : bool) | EnableConsole (level : option Z) (stream : Z) | DisableConsole
| EnableFile (f : str) (level : option Z) (fresh ok : bool) | DisableFile | AddFilter (p : str) | RemoveFilter (p : str) | ClearFilters | AddHandler (n : Z) | RemoveHandler (n : Z) | RemoveDefault.
Definition step (o : op) (g : logger) : logger :=
  match o with
  | Log level m => log level (Says m) g
  | Warn m => warn (Says m) g
  | SetLevel n => set_level n g
  | Capture b => set_capture b g
  | EnableConsole level stream => enable_console level stream g
  | DisableConsole => disable_console g
  | EnableFile f level fresh ok => snd (enable_file f level fresh ok g)
  | DisableFile => disable_file g
  | AddFilter p => add_filter p g
  | RemoveFilter p => remove_filter p g
  | ClearFilters => clear_filters g
  | AddHandler n => add_h (mkH (HUser n) 0 (User n)) g
  | RemoveHandler n => remove_h (HUser n) g
  | RemoveDefault => remove_h HDefault g
  end.
Definition run (l : list op) (g : logger) : logger := fold_left (fun g o => step o g) l g.
(** The logger after import (45-54): level INFO, the handler for stderr; the files as they are *)
Definition start (files : str -> list record) : logger := mkL 20 [mkH HDefault 0 (Stream 0)] [] [] None None false 0 (fun _ => []) files (fun _ => []).
