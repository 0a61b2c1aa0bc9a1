(** What a user expects of the telemetry: it counts, keeps what it counted, and can be switched off. *)
From Coq Require Import List ZArith Bool.
From Verif Require Import M_Str M_Tele.
Import ListNotations.
Open Scope Z_scope.

(** the sum of [f timing] over the calls of [n] in a program *)
Fixpoint counted (f : Z -> Z) (n : str) (l : list op) : Z :=
  match l with
  | [] => 0
  | Track m timing _ _ :: l => (if list_eq_dec Z.eq_dec m n then f timing else 0) + counted f n l
  | _ :: l => counted f n l
  end.
(** what a table says about [n] *)
Fixpoint said (f : info -> Z) (n : str) (t : list (str * info)) : Z :=
  match t with [] => 0 | (m, i) :: t => (if list_eq_dec Z.eq_dec m n then f i else 0) + said f n t end.
(** what all logs say about it *)
Fixpoint logged (f : info -> Z) (n : str) (l : list (Z * Z * content)) : Z :=
  match l with [] => 0 | (_, Full t) :: l => said f n t + logged f n l | (_, Half) :: l => logged f n l end.
(** names of the library's parts *)
Definition ours (n : str) : Prop := exists r, n = [108; 115; 108] ++ r.
(** a program that leaves telemetry on and discards nothing *)
Definition stays_on (l : list op) : Prop := ~ In Disable l /\ ~ In Clear l /\ ~ In Ignore l.
(** when a log is written: write() is called with something in the table, or a call brings the number of different names to the limit *)
Definition names_with (n : str) (t : list (str * info)) : Z := Z.of_nat (length (nodup (list_eq_dec Z.eq_dec) (n :: map fst t))).
Definition writes (o : op) (s : client) : Prop :=
  match o with Write _ _ => t_cache s <> [] | Track n _ _ _ => ours n /\ t_max s <= names_with n (t_cache s) | _ => False end.
(** a run of a program in which no log is written under a name that a log has already *)
Definition second (o : op) : Z := match o with Track _ _ now _ => now | Write now _ => now | _ => 0 end.
Fixpoint no_clash (l : list op) (s : client) : Prop :=
  match l with
  | [] => True
  | o :: l => (writes o s -> ~ In (second o, t_pid s) (map fst (t_files s))) /\ no_clash l (step o s)
  end.
(** the files of clients whose writes succeed *)
Definition disk_of (o : op) : disk := match o with Track _ _ _ d => d | Write _ d => d | _ => Good end.

(** Uploads: a log that was written is on the disk or was received, or was only half there when an upload read it *)
Definition on_disk (n : Z * Z) (p : Z) (w : world) : Prop := exists t, In (mkF n (Whole p) t) (w_files w).
Definition half_there (n : Z * Z) (w : world) : Prop := exists t, In (mkF n Part t) (w_files w).
Definition read_half (n : Z * Z) (l : list event) (w0 : world) : Prop :=
  exists before after all todo got, l = before ++ Reads :: after /\ w_up (history before w0) = Some (Reading all (n :: todo) got) /\ half_there n (history before w0).
(** the log [n] with payload [p] has been written by a client *)
Definition completed (n : Z * Z) (p : Z) (l : list event) (w0 : world) : Prop :=
  exists before after now, l = before ++ Filled n p now :: after /\ half_there n (history before w0).
