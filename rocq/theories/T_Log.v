(** Property theorems (generated from P_LogT.v by tools/gen_theorems.py). *)
From Coq Require Import List ZArith Bool Lia.
From Verif Require Import M_Py M_Str P_Str M_Log S_Log P_Log P_LogD P_LogT.
Import ListNotations.
Open Scope Z_scope.

(** C120: from enable_file_logging() on, as long as the file is not changed, the file gets each message that is due, once and in order: those of the level of the file at least. *)
Theorem C120_file : forall (files : str -> list record) (h l : list op) (f : str) (level : option Z) (fresh : bool),
  (forall o, In o l -> match o with EnableFile _ _ _ _ | DisableFile => False | _ => True end) ->
  let h' := h ++ [EnableFile f level fresh true] in
  exists rs, told h' l rs /\ g_files (run (h' ++ l) (start files)) f = g_files (run h' (start files)) f ++ filter (fun r => match level with Some n => n | None => 0 end <=? c_level r) rs.
Proof. exact C120_file_proof. Qed.
Print Assumptions C120_file.

Example C120_file_example : let l := [Log 10 [97]; Log 25 [98]; SetLevel 30; Log 25 [99]; EnableConsole None 0; AddFilter [108; 115; 108; 42]; Log 40 [100]; Capture true; Warn [101]; ClearFilters; Warn [102]] in
  (forall o, In o l -> match o with EnableFile _ _ _ _ | DisableFile => False | _ => True end) /\
  g_files (run ([EnableFile [120] None false true] ++ l) (start (fun _ => []))) [120] = [mkRec 25 of_lsl (Says [98]); mkRec 40 of_lsl (Says [100]); mkRec 30 of_warnings (Says [102])].
Proof. exact C120_file_example_proof. Qed.

(** C120: a call to start a log empties the file first if it is asked to, and otherwise leaves what is there. *)
Theorem C120_mode : forall (files : str -> list record) (h : list op) (f : str) (level : option Z) (fresh : bool),
  exists rs, told h [EnableFile f level fresh true] rs /\
  g_files (run (h ++ [EnableFile f level fresh true]) (start files)) f = if fresh then [] else g_files (run h (start files)) f ++ match logs_to h with Some (k, lv) => if list_eq_dec Z.eq_dec k f then filter (fun r => lv <=? c_level r) rs else [] | None => [] end.
Proof. exact C120_mode_proof. Qed.
Print Assumptions C120_mode.

Example C120_mode_example : let h := [EnableFile [120] None false true; Log 25 [98]] in
  g_files (run (h ++ [EnableFile [120] None false true]) (start (fun _ => []))) [120] = [mkRec 25 of_lsl (Says [98])] /\ g_files (run (h ++ [EnableFile [120] None true true]) (start (fun _ => []))) [120] = [].
Proof. exact C120_mode_example_proof. Qed.

(** C120: a file that is not the one logged to does not change, unless it is opened. *)
Theorem C120_other_files : forall (files : str -> list record) (h : list op) (o : op) (f : str), (forall lv, logs_to h <> Some (f, lv)) -> (forall lv fresh ok, o <> EnableFile f lv fresh ok) ->
  g_files (run (h ++ [o]) (start files)) f = g_files (run h (start files)) f.
Proof. exact C120_other_files_proof. Qed.
Print Assumptions C120_other_files.

Example C120_other_files_example : forall lv, logs_to [EnableFile [120] None false true; EnableFile [121] None false true] <> Some ([120], lv).
Proof. exact C120_other_files_example_proof. Qed.

(** C120, finding: if the new file cannot be opened the log that was there is closed all the same: what follows is written nowhere. *)
Theorem C120_failed_switch_refuted : forall (files : str -> list record) (f k : str) (level : option Z) (fresh : bool) (m : str), f <> k ->
  let h := [EnableFile f None false true; EnableFile k level fresh false] in
  fst (enable_file k level fresh false (run [EnableFile f None false true] (start files))) = Raise OSError /\ g_files (run (h ++ [Log 40 m]) (start files)) f = files f.
Proof. exact C120_failed_switch_refuted_proof. Qed.
Print Assumptions C120_failed_switch_refuted.

Example C120_failed_switch_example : g_files (run [EnableFile [120] None false true; Log 40 [97]] (start (fun _ => []))) [120] = [mkRec 40 of_lsl (Says [97])].
Proof. exact C120_failed_switch_example_proof. Qed.

(** C120, finding: captured warnings do not heed the level: with the level CRITICAL a warning is still written. *)
Theorem C120_warning_level_refuted : forall (m : str), g_files (run [EnableFile [120] None true true; SetLevel 50; Capture true; Warn m] (start (fun _ => []))) [120] = [mkRec 30 of_warnings (Says m)].
Proof. exact C120_warning_level_refuted_proof. Qed.
Print Assumptions C120_warning_level_refuted.

(** C120: a handler of the user's gets each message that is due, once and in order, while it is attached, however often it was added. *)
Theorem C120_handler : forall (files : str -> list record) (h l : list op) (n : Z), attached n h = true -> ~ In (RemoveHandler n) l ->
  exists rs, told h l rs /\ g_user (run (h ++ l) (start files)) n = g_user (run h (start files)) n ++ filter (fun r => 0 <=? c_level r) rs.
Proof. exact C120_handler_proof. Qed.
Print Assumptions C120_handler.

Example C120_handler_example : attached 7 [AddHandler 7; AddHandler 7] = true /\ g_user (run ([AddHandler 7; AddHandler 7] ++ [Log 25 [97]]) (start (fun _ => []))) 7 = [mkRec 25 of_lsl (Says [97])].
Proof. exact C120_handler_example_proof. Qed.

(** C120: a handler that is not attached gets nothing. *)
Theorem C120_detached : forall (files : str -> list record) (h : list op) (o : op) (n : Z), attached n h = false -> g_user (run (h ++ [o]) (start files)) n = g_user (run h (start files)) n.
Proof. exact C120_detached_proof. Qed.
Print Assumptions C120_detached.

Example C120_detached_example : attached 7 [AddHandler 7; AddHandler 8; RemoveHandler 7] = false /\ attached 8 [AddHandler 7; AddHandler 8; RemoveHandler 7] = true.
Proof. exact C120_detached_example_proof. Qed.

(** C121: a filter's pattern is a shell pattern: '*' stands for anything, '?' for one character (a '[' starts a set, which the model leaves out). *)
Theorem C121_pattern : forall (p s : str), ~ In 91 p -> (fnmatch p s = true <-> like p s).
Proof. exact C121_pattern_proof. Qed.
Print Assumptions C121_pattern.

Example C121_pattern_example : ~ In 91 [97; 42; 98; 63] /\ like [97; 42; 98; 63] [97; 120; 98; 121; 98; 122] /\ ~ like [97; 42; 98; 63] [97; 120; 121; 98].
Proof. exact C121_pattern_example_proof. Qed.

(** C121, finding: all messages carry the name of the one logger, 'lsl_logger', not that of the module.  A filter with the pattern of a module, such as the documented 'lsl.imaging.*', silences the library:
    while it is in force nothing is written anywhere. *)
Theorem C121_module_filter_refuted : forall (files : str -> list record) (h : list op) (o : op) (p r : str) (t : sink), p = [108; 115; 108; 46] ++ r -> in_force p h = true ->
  (forall f lv ok, o = EnableFile f lv true ok -> t <> File f) -> got t (run (h ++ [o]) (start files)) = got t (run h (start files)).
Proof. exact C121_module_filter_refuted_proof. Qed.
Print Assumptions C121_module_filter_refuted.

Example C121_module_filter_example : in_force [108; 115; 108; 46; 105; 42] [AddFilter [108; 115; 108; 46; 105; 42]] = true /\ ~ like [108; 115; 108; 46; 105; 42] of_lsl.
Proof. exact C121_module_filter_example_proof. Qed.

(** C121: a filter that was added and then removed, or cleared, has no effect; adding one twice is the same as once. *)
Theorem C121_undone : forall (files : str -> list record) (h l : list op) (p : str), in_force p h = false ->
  g_filters (run (h ++ [AddFilter p; RemoveFilter p]) (start files)) = g_filters (run h (start files)) /\
  run (h ++ [AddFilter p; AddFilter p] ++ l) (start files) = run (h ++ [AddFilter p] ++ l) (start files) /\ g_filters (run (h ++ [ClearFilters]) (start files)) = [].
Proof. exact C121_undone_proof. Qed.
Print Assumptions C121_undone.

Example C121_undone_example : in_force [97] [AddFilter [97]; ClearFilters] = false.
Proof. exact C121_undone_example_proof. Qed.

(** C122: what reaches standard error: each message that is due once by the handler made at import and, if the console was enabled there and the level is enough, once more. *)
Theorem C122_copies_partial : forall (files : str -> list record) (h : list op) (o : op), ~ In RemoveDefault h ->
  exists rs, told h [o] rs /\ g_streams (run (h ++ [o]) (start files)) 0 = g_streams (run h (start files)) 0 ++
    flat_map (fun r => (if 0 <=? c_level r then [r] else []) ++ match console_in h with Some (s, lv) => if (s =? 0) && (lv <=? c_level r) then [r] else [] | None => [] end) rs.
Proof. exact C122_copies_partial_proof. Qed.
Print Assumptions C122_copies_partial.

Example C122_copies_example : g_streams (run [EnableConsole (Some 40) 0; Log 30 [97]; Log 40 [98]] (start (fun _ => []))) 0 = [mkRec 30 of_lsl (Says [97]); mkRec 40 of_lsl (Says [98]); mkRec 40 of_lsl (Says [98])].
Proof. exact C122_copies_example_proof. Qed.

(** C122, finding: enable_console_logging() makes every message appear twice, and after disable_console_logging() it still appears. *)
Theorem C122_twice_refuted : forall (m : str), g_streams (run [EnableConsole None 0; Log 25 m] (start (fun _ => []))) 0 = [mkRec 25 of_lsl (Says m); mkRec 25 of_lsl (Says m)] /\
  g_streams (run [EnableConsole None 0; DisableConsole; Log 25 m] (start (fun _ => []))) 0 = [mkRec 25 of_lsl (Says m)].
Proof. exact C122_twice_refuted_proof. Qed.
Print Assumptions C122_twice_refuted.

(** C122: another stream gets each message that is due once while it is the console's, and nothing otherwise. *)
Theorem C122_stream : forall (files : str -> list record) (h : list op) (o : op) (s : Z), s <> 0 ->
  exists rs, told h [o] rs /\ g_streams (run (h ++ [o]) (start files)) s = g_streams (run h (start files)) s ++ match console_in h with Some (k, lv) => if k =? s then filter (fun r => lv <=? c_level r) rs else [] | None => [] end.
Proof. exact C122_stream_proof. Qed.
Print Assumptions C122_stream.

Example C122_stream_example : g_streams (run [EnableConsole None 1; Log 30 [97]; EnableConsole None 2; Log 40 [98]] (start (fun _ => []))) 1 = [mkRec 30 of_lsl (Says [97])].
Proof. exact C122_stream_example_proof. Qed.
