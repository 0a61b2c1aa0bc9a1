(** What a user expects of the logger: a message goes, once, to each of the places that were asked for. *)
From Coq Require Import List ZArith Bool.
From Verif Require Import M_Str M_Log.
Import ListNotations.
Open Scope Z_scope.

(** A name that matches a shell pattern: '*' is anything, '?' any character *)
Inductive like : str -> str -> Prop :=
| Like_nil : like [] []
| Like_star p a s : like p s -> like (42 :: p) (a ++ s)
| Like_any p c s : like p s -> like (63 :: p) (c :: s)
| Like_char p c s : c <> 42 -> c <> 63 -> like p s -> like (c :: p) (c :: s).

(** After the calls [h]: the level, whether the pattern p filters, whether warnings are captured *)
Definition level_in (h : list op) : Z := fold_left (fun n o => match o with SetLevel m => m | _ => n end) h 20.
Definition in_force (p : str) (h : list op) : bool :=
  fold_left (fun b o => match o with
                        | AddFilter q => if list_eq_dec Z.eq_dec p q then true else b
                        | RemoveFilter q => if list_eq_dec Z.eq_dec p q then false else b
                        | ClearFilters => false
                        | _ => b
                        end) h false.
Definition capturing (h : list op) : bool := fold_left (fun b o => match o with Capture c => c | _ => b end) h false.
(** The file that is logged to with its level, and the one that the logger takes for it (a file that was closed for one that cannot be opened still counts) *)
Definition logs_to (h : list op) : option (str * Z) :=
  fold_left (fun c o => match o with EnableFile f l _ true => Some (f, match l with Some n => n | None => 0 end) | EnableFile _ _ _ false => None | DisableFile => None | _ => c end) h None.
Definition last_file (h : list op) : option str :=
  fold_left (fun c o => match o with EnableFile f _ _ true => Some f | DisableFile => None | _ => c end) h None.
(** The stream and level of the console, the handlers of the user *)
Definition console_in (h : list op) : option (Z * Z) :=
  fold_left (fun c o => match o with EnableConsole l s => Some (s, match l with Some n => n | None => 0 end) | DisableConsole => None | _ => c end) h None.
Definition attached (n : Z) (h : list op) : bool :=
  fold_left (fun b o => match o with AddHandler m => if m =? n then true else b | RemoveHandler m => if m =? n then false else b | _ => b end) h false.

(** The record that is due when [o] is called after [h].  Messages need the level (that of Python's root logger, WARNING, if it is set to 0); captured warnings do not. *)
Definition passes (h : list op) (name : str) : Prop := forall p, in_force p h = true -> like p name.
Definition of_lsl : str := [108; 115; 108; 95; 108; 111; 103; 103; 101; 114].
Definition of_warnings : str := [112; 121; 46; 119; 97; 114; 110; 105; 110; 103; 115].
Definition due (h : list op) (o : op) (r : record) : Prop :=
  match o with
  | Log level m => r = mkRec level of_lsl (Says m) /\ (if Z.eq_dec (level_in h) 0 then 30 <= level else level_in h <= level) /\ passes h of_lsl
  | Warn m => r = mkRec 30 of_warnings (Says m) /\ capturing h = true /\ passes h of_warnings
  | EnableFile f _ _ _ => exists old, last_file h = Some old /\ r = mkRec 30 of_warnings (Switching old f) /\ capturing h = true /\ passes h of_warnings
  | _ => False
  end.
(** The records of the calls [l] made after [h] *)
Inductive told : list op -> list op -> list record -> Prop :=
| Told_nil h : told h [] []
| Told_some h o l r rs : due h o r -> told (h ++ [o]) l rs -> told h (o :: l) (r :: rs)
| Told_none h o l rs : (forall r, ~ due h o r) -> told (h ++ [o]) l rs -> told h (o :: l) rs.

(** What is in a place *)
Definition got (s : sink) (g : logger) : list record := match s with Stream n => g_streams g n | File f => g_files g f | User n => g_user g n end.
