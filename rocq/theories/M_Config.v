(** Model of lsl/config.py: the configuration container and its file. *)
From Coq Require Import List ZArith Bool QArith.
From Verif Require Export M_Py M_Str.
Import ListNotations.
Open Scope Z_scope.

(** Python dictionaries with string keys, in insertion order. *)
Fixpoint dget {A} (n : str) (d : list (str * A)) : option A :=
  match d with [] => None | (m, a) :: r => if str_eqb m n then Some a else dget n r end.
Fixpoint dput {A} (n : str) (a : A) (d : list (str * A)) : list (str * A) :=
  match d with [] => [(n, a)] | (m, b) :: r => if str_eqb m n then (n, a) :: r else (m, b) :: dput n a r end.
Fixpoint ddel {A} (n : str) (d : list (str * A)) : list (str * A) :=
  match d with [] => [] | (m, b) :: r => if str_eqb m n then r else (m, b) :: ddel n r end.

(** Parameter values.  Simplification: floats are rationals (no NaN, no infinity, no signed zero). *)
Inductive value := VNone | VBool (b : bool) | VInt (n : Z) | VFloat (q : Q) | VStr (s : str).
(** type(a) == type(b). *)
Definition same_type (a b : value) : bool :=
  match a, b with VNone, VNone | VBool _, VBool _ | VInt _, VInt _ | VFloat _, VFloat _ | VStr _, VStr _ => true | _, _ => false end.
(** a == b: True is 1, 1 is 1.0. *)
Definition as_num (v : value) : option Q :=
  match v with VBool b => Some (if b then 1 else 0)%Q | VInt n => Some (inject_Z n) | VFloat q => Some q | _ => None end.
Definition py_eq (a b : value) : bool :=
  match as_num a, as_num b with
  | Some x, Some y => Qeq_bool x y
  | None, None => match a, b with VNone, VNone => true | VStr s, VStr t => str_eqb s t | _, _ => false end
  | _, _ => false
  end.

(** LSLConfigParameter (168-198) in a dictionary under its name.  [p_help] is the help text as textwrap.fill breaks it into lines
    (the breaking itself is not modelled). *)
Record param := mkP { p_value : value; p_help : option (list str); p_opt : bool }.
Definition set_value (v : value) (p : param) : param := mkP v (p_help p) (p_opt p).
(** LSLConfigContainer (201-214). *)
Record cfg := mkC { params : list (str * param); pend : list (str * (value * value)); pch : bool; vch : bool; loaded : Z }.

(** get (351-360). *)
Definition get (n : str) (c : cfg) : exn + value :=
  match dget n (params c) with Some p => inr (p_value p) | None => inl ValueError end.
(** set (362-399): None when it succeeds. *)
Definition set (n : str) (v : value) (c : cfg) : option exn * cfg :=
  match dget n (params c) with
  | None => (Some ValueError, c)
  | Some p =>
      let old := p_value p in
      if negb (same_type v old) && negb (p_opt p) then (Some TypeError, c)
      else
        let ps := dput n (set_value v p) (params c) in
        if py_eq v old then (None, mkC ps (pend c) (pch c) (vch c) (loaded c))
        else
          let original := match dget n (pend c) with Some (o, _) => o | None => old end in
          if py_eq v original
          then let l := ddel n (pend c) in
               (None, mkC ps l ((0 <? Z.of_nat (length l)) || vch c) (vch c) (loaded c))
          else (None, mkC ps (dput n (original, v) (pend c)) true (vch c) (loaded c))
  end.
(** set_temp (402-425): what happens on entry; the old value is kept for the exit. *)
Definition enter (n : str) (v : value) (c : cfg) : (exn + value) * cfg :=
  match dget n (params c) with
  | None => (inl ValueError, c)
  | Some p => if negb (same_type v (p_value p)) && negb (p_opt p) then (inl TypeError, c)
              else (inr (p_value p), mkC (dput n (set_value v p) (params c)) (pend c) (pch c) (vch c) (loaded c))
  end.
(** The finally clause (420-421); parameters are never removed, so the name is there. *)
Definition leave (n : str) (old : value) (c : cfg) : cfg :=
  match dget n (params c) with
  | Some p => mkC (dput n (set_value old p) (params c)) (pend c) (pch c) (vch c) (loaded c)
  | None => c
  end.

(** Programs that use the container. *)
Inductive prog :=
  | Skip
  | Raise (e : exn)
  | Set_ (n : str) (v : value)                 (* LSL_CONFIG.set(n, v) *)
  | Seq (p q : prog)
  | Catch (p : prog)                           (* try: p; except Exception: pass *)
  | Temp (n : str) (v : value) (p : prog).     (* with LSL_CONFIG.set_temp(n, v): p *)
Fixpoint exec (p : prog) (c : cfg) : option exn * cfg :=
  match p with
  | Skip => (None, c)
  | Raise e => (Some e, c)
  | Set_ n v => set n v c
  | Seq p q => let (o, c1) := exec p c in match o with None => exec q c1 | _ => (o, c1) end
  | Catch p => (None, snd (exec p c))
  | Temp n v p => match enter n v c with
                  | (inl e, c1) => (Some e, c1)
                  | (inr old, c1) => let (o, c2) := exec p c1 in
                                     ((match o with Some KeyError => Some ValueError | _ => o end), leave n old c2)   (* except KeyError, 423-424, is around the yield *)
                  end
  end.

(** What the file holds: its modification time, and names and values. *)
Definition contents := list (str * value).
Definition values (c : cfg) : contents := map (fun x => (fst x, p_value (snd x))) (params c).
(** _save_config (311-338) at time [now]; [ro] is _IS_READONLY.  Simplification: the lock is available. *)
Definition save (ro : bool) (now : Z) (c : cfg) (disk : option (Z * contents)) : cfg * option (Z * contents) :=
  if ro then (c, disk)
  else
    let stale := match disk with Some (m, _) => (0 <? Z.of_nat (length (pend c))) && (loaded c <? m) | None => false end in
    let c1 := if stale then mkC (params c) [] (if vch c then pch c else false) (vch c) (loaded c) else c in
    if pch c1 then (mkC (params c1) [] false false (loaded c1), Some (now, values c1)) else (c1, disk).

(** LSLConfigSubContainer.get/set (437-457) for the section [sec]. *)
Definition dotted (sec n : str) : str := sec ++ 46 :: n.
Definition sub_get (sec n : str) (c : cfg) : exn + value :=
  match get (dotted sec n) c with inl ValueError => get n c | r => r end.
Definition sub_set (sec n : str) (v : value) (c : cfg) : option exn * cfg :=
  match set (dotted sec n) v c with (Some KeyError, c1) => set n v c1 | r => r end.

(** ** The file *)
Definition s_true : str := [84; 114; 117; 101].
Definition s_false : str := [70; 97; 108; 115; 101].
Definition s_title : str := [35; 32; 76; 83; 76; 32; 67; 111; 110; 102; 105; 103; 117; 114; 97; 116; 105; 111; 110; 32; 70; 105; 108; 101].  (* # LSL Configuration File *)
Definition s_version : str := [76; 83; 76; 32; 86; 101; 114; 115; 105; 111; 110; 58].   (* LSL Version: *)
Section Text.
  (** CPython's repr and float() for floats, and lsl.version.full_version. *)
  Variable show_float : Q -> str.
  Variable parse_float : str -> option Q.
  Variable version : str.

  Definition show (v : value) : str :=
    match v with VNone => [] | VBool b => if b then s_true else s_false | VInt n => dec n | VFloat q => show_float q | VStr s => s end.
  (** LSLConfigParameter.__str__ (188-198). *)
  Definition param_text (item : str) (p : param) : str :=
    match p_help p with
    | Some ls => join 10 (match ls with [] => [[35; 32]] | _ => map (fun l => 35 :: 32 :: l) ls end) ++ [10]
    | None => []
    end ++
    match p_value p with VNone => 35 :: item ++ [32; 61; 32; 10] | v => item ++ [32; 61; 32] ++ show v ++ [10] end.
  (** LSLConfigContainer.__str__ (229-242); None: the ValueError of the unpacking. *)
  Fixpoint body_text (last : option str) (ps : list (str * param)) : option str :=
    match ps with
    | [] => Some []
    | (n, p) :: r =>
        match rsplit1 46 n with
        | None => None
        | Some (sec, item) =>
            match body_text (Some sec) r with
            | None => None
            | Some t => Some ((match last with
                               | Some l => if str_eqb sec l then [] else [10; 91; 32] ++ sec ++ [32; 93; 10]
                               | None => [10; 91; 32] ++ sec ++ [32; 93; 10]
                               end) ++ param_text item p ++ [10] ++ t)
            end
        end
    end.
  Definition to_text (c : cfg) : option str :=
    match body_text None (params c) with
    | Some t => Some (s_title ++ [10] ++ [35; 32] ++ s_version ++ [32] ++ version ++ [10] ++ t)
    | None => None
    end.

  (** The text after the first occurrence of [p]. *)
  Fixpoint after (p s : str) : option str :=
    if starts_with p s then Some (skipn (length p) s) else match s with [] => None | _ :: r => after p r end.
  (** The value of a setting (281-294). *)
  Definition read_value (s : str) : value :=
    if str_eqb s s_true then VBool true
    else if str_eqb s s_false then VBool false
    else match parse_int s with
         | Some n => VInt n
         | None => match parse_float s with
                   | Some q => VFloat q
                   | None => match s with [] => VNone | _ => VStr s end
                   end
         end.
  Definition lstate := (option str * list (str * param) * bool)%type.
  (** One line (261-300). *)
  Definition load_line (l : str) (st : lstate) : exn + lstate :=
    let '(section, ps, ver) := st in
    let line := strip l in
    match line with
    | [] | [_] | [_; _] => inr st
    | c :: _ =>
        if c =? 35
        then match after s_version line with
             | Some v => inr (section, ps, if str_eqb (strip v) version then ver else true)
             | None => inr st
             end
        else if c =? 91 then inr (Some (strip (drop_char 93 (drop_char 91 line))), ps, ver)
        else match split1 61 line with
             | None => inl ValueError
             | Some (a, b) =>
                 let name := match section with Some s => dotted s (strip a) | None => strip a end in
                 let v := read_value (strip b) in
                 inr (section, dput name (match dget name ps with Some p => set_value v p | None => mkP v None false end) ps, ver)
             end
    end.
  Fixpoint load_lines (ls : list str) (st : lstate) : exn + lstate :=
    match ls with
    | [] => inr st
    | l :: r => match load_line l st with inr st1 => load_lines r st1 | inl e => inl e end
    end.
  (** Reading in text mode: every line end counts as a newline. *)
  Definition newlines (s : str) : str := map (fun c => if c =? 13 then 10 else c) s.
  (** _load_config (244-309): [file] is the modification time and the text. *)
  Definition load (defaults : list (str * param)) (file : option (Z * str)) : exn + cfg :=
    match file with
    | None => inr (mkC defaults [] true true 0)
    | Some (m, t) => match load_lines (split 10 (newlines t)) (None, defaults, false) with
                     | inl e => inl e
                     | inr (_, ps, ver) => inr (mkC ps [] ver ver m)
                     end
    end.
End Text.
