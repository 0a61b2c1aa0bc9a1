(** Model of the telemetry client of lsl/misc/telemetry/__init__.py and of the upload of lsl/misc/_telemetry_send.py.
    Everything in track() after the test of self.active, write() and clear() run under the client's RLock, so each call is one step. *)
From Coq Require Import List ZArith Bool.
From Verif Require Import LibList M_Py M_Str.
Import ListNotations.
Open Scope Z_scope.

(** [total, timed, time] of one name (130-135).  Simplification: times in units of the clock, sums exact. *)
Record info := mkI { i_total : Z; i_timed : Z; i_time : Z }.
(** self._cache, in the order of insertion *)
Notation table := (list (str * info)).
(** 'telemetry_%i_%i.log' % (int(tNow), os.getpid()) (172) *)
Notation log_name := (Z * Z)%type.
(** What a log holds: the calls of the payload (155-170, the other entries do not depend on what was tracked), or only a part of its text. *)
Inductive content := Half | Full (t : table).
(** How writing a log (172-174) goes: it works, the file cannot be opened, or only a part of the text is written. *)
Inductive disk := Good | NoOpen | Cut.
(** The client (60-101) with the setting telemetry.enabled, the logs in the directory and the number of uploads started. *)
Record client := mkT { t_readonly : bool; t_enabled : bool; t_active : bool; t_cache : table; t_count : Z; t_max : Z; t_pid : Z; t_files : list (log_name * content); t_sends : Z }.

Definition same_log (a b : log_name) : bool := (fst a =? fst b) && (snd a =? snd b).
(** open(filename, 'w') and write: an older file of that name is gone *)
Definition put (n : log_name) (c : content) (l : list (log_name * content)) : list (log_name * content) := filter (fun f => negb (same_log (fst f) n)) l ++ [(n, c)].
Definition with_cache (t : table) (k : Z) (s : client) : client := mkT (t_readonly s) (t_enabled s) (t_active s) t k (t_max s) (t_pid s) (t_files s) (t_sends s).
Definition with_files (l : list (log_name * content)) (s : client) : client := mkT (t_readonly s) (t_enabled s) (t_active s) (t_cache s) (t_count s) (t_max s) (t_pid s) l (t_sends s).
Definition with_switch (enabled active : bool) (s : client) : client := mkT (t_readonly s) enabled active (t_cache s) (t_count s) (t_max s) (t_pid s) (t_files s) (t_sends s).

(** __init__ and _try_send (67-118): an upload is started if the client is active *)
Definition start (readonly enabled : bool) (max_entries pid : Z) (files : list (log_name * content)) : client :=
  let active := if readonly then false else enabled in mkT readonly enabled active [] 0 max_entries pid files (if active then 1 else 0).
(** clear (185-192) *)
Definition clear (s : client) : client := with_cache [] 0 s.
(** write (143-183) at second [now] *)
Definition write (now : Z) (d : disk) (s : client) : bool * client :=
  if t_active s && (0 <? t_count s) then
    let n := (now, t_pid s) in
    match d with
    | Good => (true, clear (with_files (put n (Full (t_cache s)) (t_files s)) s))
    | NoOpen => (false, s)
    | Cut => (false, with_files (put n Half (t_files s)) s)
    end
  else (false, clear s).
(** the prefix 'lsl' (125) *)
Definition tag : str := [108; 115; 108].
(** self._cache[name][0] += 1 and so on; None: KeyError (130-132) *)
Fixpoint bump (n : str) (timing : Z) (t : table) : option table :=
  match t with
  | [] => None
  | (m, i) :: t => if str_eqb m n then Some ((m, mkI (i_total i + 1) (i_timed i + (if 0 <? timing then 1 else 0)) (i_time i + timing)) :: t)
                   else match bump n timing t with None => None | Some t => Some ((m, i) :: t) end
  end.
(** track (120-141) *)
Definition track (n : str) (timing now : Z) (d : disk) (s : client) : bool * client :=
  if negb (starts_with tag n) || negb (t_active s) then (false, s)
  else let s1 := match bump n timing (t_cache s) with
                 | Some t => with_cache t (t_count s) s
                 | None => with_cache (t_cache s ++ [(n, mkI 1 (0 + (if 0 <? timing then 1 else 0)) timing)]) (t_count s + 1) s
                 end in
       (true, if t_max s <=? t_count s1 then snd (write now d s1) else s1).
(** enable (202-209) *)
Definition enable (s : client) : client := with_switch true (if t_readonly s then t_active s else true) s.
(** disable (211-217) *)
Definition disable (s : client) : client := with_switch false false s.
(** ignore (219-225): TELE_CONFIG.set_temp() (config.py 402-425) is a context manager, and is only made, never entered, so the setting stays. *)
Definition ignore (s : client) : client := with_switch (t_enabled s) (t_enabled s) s.

Inductive op := Track (n : str) (timing now : Z) (d : disk) | Write (now : Z) (d : disk) | Clear | Enable | Disable | Ignore.
Definition step (o : op) (s : client) : client :=
  match o with
  | Track n timing now d => snd (track n timing now d s)
  | Write now d => snd (write now d s)
  | Clear => clear s
  | Enable => enable s
  | Disable => disable s
  | Ignore => ignore s
  end.
Definition run (l : list op) (s : client) : client := fold_left (fun s o => step o s) l s.
(** One Python session: import, what the program does, write() at exit (atexit, 98; only registered with a writable directory) and the setting saved (config.py 475).
    Gives the setting, the logs and the number of uploads. *)
Definition session (readonly : bool) (max_entries pid : Z) (l : list op) (now : Z) (d : disk) (w : bool * list (log_name * content) * Z) : bool * list (log_name * content) * Z :=
  let '(enabled, files, sends) := w in
  let s := run l (start readonly enabled max_entries pid files) in
  let s := if readonly then s else snd (write now d s) in (t_enabled s, t_files s, sends + t_sends s).

Section Wrappers.
Context {A R : Type}.
(** A function called with its arguments: it may change the client (by calls of its own), and gives a result or an exception. *)
Notation func := (list A -> client -> res R * client).
(** track_function and track_function_timed (324-369); [clock] is the time the call took *)
Definition tracked (name : str) (clock : client -> client -> Z) (now : Z) (d : disk) (f : func) : func := fun args s =>
  match f args s with
  | (Ok r, s') => (Ok r, snd (track name (clock s s') now d s'))
  | (Raise e, s') => (Raise e, s')
  end.
(** track_method and track_method_timed (372-421): the name depends on the type of the first argument *)
Definition tracked_method (name : A -> str) (clock : client -> client -> Z) (now : Z) (d : disk) (f : func) : func := fun args s =>
  match f args s with
  | (Ok r, s') => match args with a :: _ => (Ok r, snd (track (name a) (clock s s') now d s')) | [] => (Raise IndexError, s') end
  | (Raise e, s') => (Raise e, s')
  end.
(** track_class (300-321): [same] is type(self) is user_class *)
Definition tracked_init (name : str) (same : A -> bool) (now : Z) (d : disk) (init : func) : func := fun args s =>
  match args with
  | self :: _ => init args (if same self then snd (track name 0 now d s) else s)
  | [] => (Raise TypeError, s)
  end.
End Wrappers.

(** ** The upload, _telemetry_send.py.  One step is one file operation; the lock (22-31) lets only one upload go past line 31, so there is at most one, which may die at any point.
    A payload is a number. *)
Inductive text := Part | Whole (p : Z).
Record file := mkF { f_name : log_name; f_text : text; f_time : Z }.
(** Where the upload is: reading the logs (42-51), sending (53-56), removing them (58-63) *)
Inductive place := Reading (all todo : list log_name) (got : list Z) | Sending (all : list log_name) (got : list Z) | Removing (todo : list log_name).
Record world := mkW { w_files : list file; w_up : option place; w_server : list Z }.
Definition find_file (n : log_name) (l : list file) : option file := find (fun f => same_log (f_name f) n) l.
Inductive event :=
  | Opened (n : log_name) (now : Z)            (* a client opens a log of a new name *)
  | Filled (n : log_name) (p now : Z)          (* and has written it *)
  | Starts (now : Z)                           (* an upload starts *)
  | Reads                                      (* and reads one log, or has read the last *)
  | Posts (received reply_empty : bool)        (* sends what it read: whether the server got it, and whether the empty reply comes back *)
  | Unlinks (works : bool)                     (* removes one log, or has removed the last *)
  | Dies.
(** min(os.path.getmtime(f) for f in filenames) (38) *)
Fixpoint oldest (l : list file) : Z := match l with [] => 0 | [f] => f_time f | f :: l => Z.min (f_time f) (oldest l) end.
Definition happens (e : event) (w : world) : world :=
  match e with
  | Opened n now => match find_file n (w_files w) with Some _ => w | None => mkW (w_files w ++ [mkF n Part now]) (w_up w) (w_server w) end
  | Filled n p now => mkW (map (fun f => if same_log (f_name f) n then match f_text f with Part => mkF n (Whole p) now | Whole _ => f end else f) (w_files w)) (w_up w) (w_server w)
  | Starts now =>
      match w_up w, w_files w with
      | None, [] => w
      | None, l => if now - oldest l <? 7 * 86400 then w else mkW l (Some (Reading (map f_name l) (map f_name l) [])) (w_server w)
      | Some _, _ => w
      end
  | Reads =>
      match w_up w with
      | Some (Reading all (n :: todo) got) =>
          let got := match find_file n (w_files w) with Some f => match f_text f with Whole p => got ++ [p] | Part => got end | None => got end in
          mkW (w_files w) (Some (Reading all todo got)) (w_server w)
      | Some (Reading all [] got) => mkW (w_files w) (match got with [] => None | _ => Some (Sending all got) end) (w_server w)
      | _ => w
      end
  | Posts received reply_empty =>
      match w_up w with
      | Some (Sending all got) =>
          mkW (w_files w) (if received && reply_empty then Some (Removing all) else None) (if received then w_server w ++ got else w_server w)
      | _ => w
      end
  | Unlinks works =>
      match w_up w with
      | Some (Removing (n :: todo)) => mkW (if works then filter (fun f => negb (same_log (f_name f) n)) (w_files w) else w_files w) (Some (Removing todo)) (w_server w)
      | Some (Removing []) => mkW (w_files w) None (w_server w)
      | _ => w
      end
  | Dies => mkW (w_files w) None (w_server w)
  end.
Definition history (l : list event) (w : world) : world := fold_left (fun w e => happens e w) l w.
