(** Property theorems (generated from P_TeleT.v by tools/gen_theorems.py). *)
From Coq Require Import List ZArith Bool Lia.
From Verif Require Import LibList M_Py M_Str M_Tele S_Tele P_Tele P_TeleUp P_TeleT.
Import ListNotations.
Open Scope Z_scope.

(** C98: while telemetry stays on and no two logs fall into the same second, nothing that was called is forgotten and nothing is counted twice, whether or not writing works: for every name of the library, the number of
    calls, of timed calls and their time in the logs and in memory together grow by exactly those of the program. *)
Theorem C98_counts_partial : forall (readonly enabled : bool) (max_entries pid : Z) (files : list (Z * Z * content)) (l : list op) (n : str),
  let s0 := start readonly enabled max_entries pid files in let s := run l s0 in
  t_active s0 = true -> stays_on l -> no_clash l s0 -> ours n ->
  logged i_total n (t_files s) + said i_total n (t_cache s) = logged i_total n files + counted (fun _ => 1) n l /\
  logged i_timed n (t_files s) + said i_timed n (t_cache s) = logged i_timed n files + counted (fun t => if 0 <? t then 1 else 0) n l /\
  logged i_time n (t_files s) + said i_time n (t_cache s) = logged i_time n files + counted (fun t => t) n l.
Proof. exact C98_counts_partial_proof. Qed.
Print Assumptions C98_counts_partial.

Example C98_counts_example : stays_on program /\ no_clash program (start false true 2 1 []) /\ ours name_a /\ t_files (run program (start false true 2 1 [])) = [((12, 1), Half); ((13, 1), Full [(name_a, mkI 2 2 12); (name_b, mkI 1 0 0)])].
Proof. exact C98_counts_example_proof. Qed.

(** C98: the table in memory stays below the limit as long as writing works. *)
Theorem C98_bounded : forall (readonly enabled : bool) (max_entries pid : Z) (files : list (Z * Z * content)) (l : list op), 0 < max_entries -> (forall o, In o l -> disk_of o = Good) ->
  Z.of_nat (length (t_cache (run l (start readonly enabled max_entries pid files)))) < max_entries.
Proof. exact C98_bounded_proof. Qed.
Print Assumptions C98_bounded.

Example C98_bounded_example : length (t_cache (run [Track name_a 1 5 Good; Track name_b 1 5 Good; Track name_a 1 6 Good] (start false true 3 1 []))) = 2%nat.
Proof. exact C98_bounded_example_proof. Qed.

(** C98: once switched off for good telemetry stays off: in all later sessions, whatever the programs do short of enable(), no log is written or changed and no upload is started. *)
Theorem C98_off : forall (ss : list (bool * Z * Z * list op * Z * disk)) (files : list (Z * Z * content)) (sends : Z),
  (forall r m p l now d, In (r, m, p, l, now, d) ss -> ~ In Enable l) ->
  fold_left (fun w x => let '(r, m, p, l, now, d) := x in session r m p l now d w) ss (false, files, sends) = (false, files, sends).
Proof. exact C98_off_proof. Qed.
Print Assumptions C98_off.

Example C98_off_example : session false 100 7 [Track name_a 1 5 Good; Disable; Track name_b 1 6 Good] 9 Good (true, [], 0) = (false, [], 1) /\ session false 100 8 [Track name_a 1 5 Good] 9 Good (false, [], 1) = (false, [], 1).
Proof. exact C98_off_example_proof. Qed.

(** C98: a program that switches telemetry off loses what was counted before in the same session and was not yet written. *)
Theorem C98_disable_drops : forall (s : client) (now : Z) (d : disk), snd (write now d (disable s)) = clear (disable s).
Proof. exact C98_disable_drops_proof. Qed.
Print Assumptions C98_disable_drops.

Example C98_disable_drops_example : t_cache (run [Track name_a 1 5 Good] (start false true 100 7 [])) <> [] /\ t_files (run [Track name_a 1 5 Good; Disable; Write 9 Good] (start false true 100 7 [])) = [].
Proof. exact C98_disable_drops_example_proof. Qed.

(** C98, finding: ignore() does not switch telemetry off.  It leaves the setting as it was and makes the client do what the setting says: telemetry that is on stays on, and where the directory
    cannot be written it is even switched on. *)
Theorem C98_ignore_refuted : forall (s : client), t_enabled s = true -> t_active (ignore s) = true /\ t_enabled (ignore s) = true /\
  (forall n timing now d, ours n -> fst (track n timing now d (ignore s)) = true).
Proof. exact C98_ignore_refuted_proof. Qed.
Print Assumptions C98_ignore_refuted.

Example C98_ignore_example : t_active (start true true 100 7 []) = false /\ t_active (ignore (start true true 100 7 [])) = true /\ t_files (run [Ignore; Track name_a 1 5 Good; Write 9 Good] (start false true 100 7 [])) = [((9, 7), Full [(name_a, mkI 1 1 1)])].
Proof. exact C98_ignore_example_proof. Qed.

(** C98, finding: two logs written by a process within one second have the same name, and the first is lost. *)
Theorem C98_clash_refuted : exists l s0, t_active s0 = true /\ stays_on l /\ ours name_a /\ (forall o, In o l -> disk_of o = Good) /\ counted (fun _ => 1) name_a l = 1 /\
  logged i_total name_a (t_files (run l s0)) + said i_total name_a (t_cache (run l s0)) = 0.
Proof. exact C98_clash_refuted_proof. Qed.
Print Assumptions C98_clash_refuted.

(** C98: a tracked function gives what the function gives, value or exception; calls that fail are not counted. *)
Theorem C98_transparent : forall (A R : Type) (name : str) (clock : client -> client -> Z) (now : Z) (d : disk) (f : list A -> client -> res R * client) (args : list A) (s : client),
  fst (tracked name clock now d f args s) = fst (f args s) /\
  snd (tracked name clock now d f args s) = (match fst (f args s) with Ok _ => snd (track name (clock s (snd (f args s))) now d (snd (f args s))) | Raise _ => snd (f args s) end).
Proof. exact C98_transparent_proof. Qed.
Print Assumptions C98_transparent.

Example C98_transparent_example : fst (tracked name_a (fun _ _ => 3) 5 Good (fun (args : list Z) s => (if hd 0 args =? 0 then Raise ZeroDivisionError else Ok (10 / hd 0 args), s)) [2] (start false true 9 1 [])) = Ok 5.
Proof. exact C98_transparent_example_proof. Qed.

(** C98: a tracked method called with its object gives what the method gives; called with keywords only it fails with IndexError after having run. *)
Theorem C98_method_partial : forall (A R : Type) (name : A -> str) (clock : client -> client -> Z) (now : Z) (d : disk) (f : list A -> client -> res R * client) (args : list A) (s : client),
  (args <> [] -> fst (tracked_method name clock now d f args s) = fst (f args s)) /\
  (forall r, args = [] -> fst (f args s) = Ok r -> fst (tracked_method name clock now d f args s) = Raise IndexError).
Proof. exact C98_method_partial_proof. Qed.
Print Assumptions C98_method_partial.

Example C98_method_example : [1] <> (@nil Z).
Proof. exact C98_method_example_proof. Qed.

(** C98: a tracked class makes what the plain class makes, and a new object is counted once if it is of this very class, not if it is of a class derived from it. *)
Theorem C98_class : forall (A R : Type) (name : str) (same : A -> bool) (now : Z) (d : disk) (init : list A -> client -> res R * client) (self : A) (args : list A) (s : client),
  (same self = false -> tracked_init name same now d init (self :: args) s = init (self :: args) s) /\
  (same self = true -> tracked_init name same now d init (self :: args) s = init (self :: args) (step (Track name 0 now d) s)).
Proof. exact C98_class_proof. Qed.
Print Assumptions C98_class.

Example C98_class_example : let init := fun (args : list Z) s => (Ok (hd 0 args), s) in let s := start false true 9 1 [] in
  t_cache (snd (tracked_init name_a (Z.eqb 1) 5 Good init [1] s)) = [(name_a, mkI 1 0 0)] /\ t_cache (snd (tracked_init name_a (Z.eqb 1) 5 Good init [2] s)) = [].
Proof. exact C98_class_example_proof. Qed.

(** C98: where the directory cannot be written telemetry is off, even if it is switched on: no log and no upload, short of ignore(). *)
Theorem C98_read_only : forall (enabled : bool) (max_entries pid now : Z) (l : list op) (d : disk) (files : list (Z * Z * content)) (sends : Z), ~ In Ignore l ->
  snd (fst (session true max_entries pid l now d (enabled, files, sends))) = files /\ snd (session true max_entries pid l now d (enabled, files, sends)) = sends.
Proof. exact C98_read_only_proof. Qed.
Print Assumptions C98_read_only.

Example C98_read_only_example : ~ In Ignore [Enable; Track name_a 1 5 Good; Write 6 Good].
Proof. exact C98_read_only_example_proof. Qed.

(** C99: no telemetry is lost between the clients and the server, wherever uploads stop: a log that was written is on the disk, or the server has it, or an upload read it while it was being written. *)
Theorem C99_not_lost_partial : forall (server : list Z) (l : list event) (n : Z * Z) (p : Z), let w0 := mkW [] None server in
  completed n p l w0 -> on_disk n p (history l w0) \/ In p (w_server (history l w0)) \/ read_half n l w0.
Proof. exact C99_not_lost_partial_proof. Qed.
Print Assumptions C99_not_lost_partial.

Example C99_not_lost_example : completed (1, 1) 55 good_day (mkW [] None []) /\ history good_day (mkW [] None []) = mkW [] None [55].
Proof. exact C99_not_lost_example_proof. Qed.

(** C99: the server only gets what clients have written. *)
Theorem C99_honest : forall (l : list event) (p : Z), let w0 := mkW [] None [] in In p (w_server (history l w0)) -> exists n, completed n p l w0.
Proof. exact C99_honest_proof. Qed.
Print Assumptions C99_honest.

Example C99_honest_example : In 55 (w_server (history good_day (mkW [] None []))).
Proof. exact C99_honest_example_proof. Qed.

(** C99: an upload only begins when some log has been there for a week. *)
Theorem C99_week : forall (w : world) (now : Z), w_up w = None -> w_up (happens (Starts now) w) <> None -> exists f, In f (w_files w) /\ 7 * 24 * 60 * 60 <= now - f_time f.
Proof. exact C99_week_proof. Qed.
Print Assumptions C99_week.

Example C99_week_example : w_up (happens (Starts (week + 1)) (mkW [mkF (1, 1) (Whole 5) 1] None [])) <> None.
Proof. exact C99_week_example_proof. Qed.

(** C99, finding: a log that another process is just writing when an upload reads it is removed without having been sent. *)
Theorem C99_half_refuted : exists l n p, let w := history l (mkW [] None []) in completed n p l (mkW [] None []) /\ ~ on_disk n p w /\ ~ In p (w_server w) /\ w_up w = None.
Proof. exact C99_half_refuted_proof. Qed.
Print Assumptions C99_half_refuted.

(** C99, finding: if the reply does not come back the logs are sent again. *)
Theorem C99_twice_refuted : exists l, w_server (history l (mkW [] None [])) = [55; 55] /\ w_files (history l (mkW [] None [])) = [].
Proof. exact C99_twice_refuted_proof. Qed.
Print Assumptions C99_twice_refuted.
