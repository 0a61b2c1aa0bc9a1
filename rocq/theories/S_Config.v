(** What change tracking means. *)
From Coq Require Import List ZArith Bool.
From Verif Require Import M_Str M_Config.
Import ListNotations.

(** The value a parameter has now. *)
Definition current (c : cfg) (n : str) : option value := option_map p_value (dget n (params c)).
(** The pending changes are those of the parameters whose value differs (==) from the one in [base], each with the
    old and the new value. *)
Definition pending_exactly (base : str -> option value) (c : cfg) : Prop :=
  NoDup (map fst (pend c)) /\
  (forall n, In n (map fst (pend c)) <-> exists v b, current c n = Some v /\ base n = Some b /\ py_eq v b = false) /\
  (forall n o v, In (n, (o, v)) (pend c) -> exists w b, current c n = Some w /\ base n = Some b /\ py_eq v w = true /\ py_eq o b = true).
(** A save is due when there are pending changes or the version is new. *)
Definition due (c : cfg) : Prop := pend c <> [] \/ vch c = true.
(** The program does not set() a parameter inside a set_temp() block for the same parameter; [held] are the
    parameters of the enclosing blocks. *)
Fixpoint clean (held : list str) (p : prog) : Prop :=
  match p with
  | Skip | Raise _ => True
  | Set_ n _ => ~ In n held
  | Seq p q => clean held p /\ clean held q
  | Catch p => clean held p
  | Temp n _ p => clean (n :: held) p
  end.

(** A session: programs, saves, and other processes writing the file. *)
Inductive event := Run (p : prog) | Save (ro : bool) (now : Z) | Other (file : option (Z * contents)).
Record session := mkS { s_cfg : cfg; s_disk : option (Z * contents); s_base : str -> option value (* values at the last save, or when loaded *) }.
Definition happen (e : event) (s : session) : session :=
  match e with
  | Run p => mkS (snd (exec p (s_cfg s))) (s_disk s) (s_base s)
  | Save ro now => let (c, d) := save ro now (s_cfg s) (s_disk s) in mkS c d (if ro then s_base s else current (s_cfg s))
  | Other f => mkS (s_cfg s) f (s_base s)
  end.
Definition history (es : list event) (s : session) : session := fold_left (fun s e => happen e s) es s.
Definition clean_event (e : event) : Prop := match e with Run p => clean [] p | _ => True end.

(** ** The file *)
(** No space at either end and no line end inside. *)
Definition one_line (s : str) : Prop :=
  ~ In 10%Z s /\ ~ In 13%Z s /\ (forall c r, s = c :: r -> is_space c = false) /\ (forall c r, s = r ++ [c] -> is_space c = false).
(** section.item *)
Definition good_name (n : str) : Prop :=
  exists sec item, n = sec ++ 46%Z :: item /\ ~ In 46%Z item /\
    one_line sec /\ ~ In 91%Z sec /\ ~ In 93%Z sec /\
    one_line item /\ ~ In 61%Z item /\ ~ In 58%Z item /\ (exists c r, item = c :: r /\ c <> 35%Z /\ c <> 91%Z).
Definition good_help (p : param) : Prop :=
  match p_help p with Some ls => forall l, In l ls -> ~ In 10%Z l /\ ~ In 13%Z l /\ contains s_version l = false | None => True end.
(** Values whose text is read back as the same value; None is left out of the file, so it must be the default. *)
Definition good_value (show_float : _ -> str) (parse_float : str -> option _) (default : option value) (v : value) : Prop :=
  match v with
  | VNone => default = Some VNone
  | VBool _ | VInt _ => True
  | VFloat q => let s := show_float q in
                s <> [] /\ one_line s /\ s <> s_true /\ s <> s_false /\ parse_int s = None /\ parse_float s = Some q
  | VStr s => s <> [] /\ one_line s /\ s <> s_true /\ s <> s_false /\ parse_int s = None /\ parse_float s = None
  end.
