(** Model of lsl/common/header.py: the headers of text files and parse_header.
    Simplifications: the comment is one character; only contents that fit in the width are written (in the automatic width, which is the default, everything fits);
    the logger is left out; indents are not negative. *)
From Coq Require Import List ZArith Bool.
From Verif Require Import LibList M_Py M_Str.
Import ListNotations.
Open Scope Z_scope.

Definition spaces (n : Z) : str := repeat 32 (Z.to_nat n).
Inductive style := Box | Left.
(** self._contents (80-149): rule, blank, and the three kinds that are written as text *)
Inductive kind := KRule | KBlank | KText.
Record entry := mkE { e_kind : kind; e_value : str; e_indent : Z }.
(** The calls on a header: rule (80-88), line (90-99), blank (101-109), key_value (133-149; [text] is json.dumps(value)), and a with block of section (111-131) *)
Inductive call := Rule | Blank | Line (s : str) | KeyValue (key text : str) | Section_ (name : str) (body : list call).
(** name.endswith(':') (120-121) *)
Definition with_colon (name : str) : str := if last name 0 =? 58 then name else name ++ [58].
(** What the calls append to self._contents; [indent] is self._curr_indent, [base] self._base_indent. *)
Fixpoint entries (comment base indent : Z) (c : call) : list entry :=
  match c with
  | Rule => [mkE KRule [comment] 0]
  | Blank => [mkE KBlank [] 0]
  | Line s => [mkE KText s indent]
  | KeyValue k t => [mkE KText (k ++ [58; 32] ++ t) indent]
  | Section_ n b => mkE KText (with_colon n) indent :: flat_map (entries comment base (indent + base)) b
  end.
Definition contents (comment base : Z) (l : list call) : list entry := flat_map (entries comment base base) l.

(** textwrap.fill on a text that fits in [width]: white space becomes blanks, those at the end go.  None: the text is wrapped, which is not modelled.
    Simplification: a tab counts as one blank. *)
Definition plain (c : Z) : Z := if (9 <=? c) && (c <=? 13) then 32 else c.
Fixpoint drop_blanks (s : str) : str := match s with c :: r => if c =? 32 then drop_blanks r else s | [] => [] end.
Definition fill (width : Z) (s : str) : option str := if zlen s <=? width then Some (rev (drop_blanks (rev (map plain s)))) else None.
(** s.ljust(n) *)
Definition ljust (n : Z) (s : str) : str := s ++ spaces (n - zlen s).
(** (comment*(width//len(comment)+1))[:width] (234-235, 243-246) *)
Definition rule_line (comment width : Z) : str := repeat comment (Z.to_nat width).
Definition blank_line (comment width : Z) : str := [comment] ++ spaces (width - 2) ++ [comment].
(** The width (219-224); [fixed] is self.width *)
Definition width_of (st : style) (base fixed : Z) (l : list entry) : Z :=
  if fixed <=? 0 then fold_right Z.max 0 (map (fun e => zlen (e_value e) + e_indent e) l) + 1 + 2 * base + match st with Box => 1 | Left => 0 end else fixed.
(** One entry (241-270) *)
Definition entry_line (st : style) (comment base width : Z) (e : entry) : option str :=
  match e_kind e with
  | KRule => Some match st with Box => rule_line comment width | Left => firstn (Z.to_nat width) (repeat comment 4) end
  | KBlank => Some match st with Box => blank_line comment width | Left => [comment] end
  | KText =>
      let ewidth := width - 1 - e_indent e - match st with Box => base + 1 | Left => 0 end in
      match fill ewidth (e_value e) with
      | None => None
      | Some line =>
          Some match st with
               | Box => [comment] ++ spaces (e_indent e) ++ ljust ewidth line ++ spaces base ++ [comment]
               | Left => [comment] ++ spaces (e_indent e) ++ line
               end
      end
  end.
Fixpoint all_lines (f : entry -> option str) (l : list entry) : option (list str) :=
  match l with
  | [] => Some []
  | e :: l => match f e, all_lines f l with Some s, Some r => Some (s :: r) | _, _ => None end
  end.
(** write (207-278): the lines, without their newlines *)
Definition write (st : style) (comment base fixed : Z) (calls : list call) : option (list str) :=
  let l := contents comment base calls in
  match l with
  | [] => Some []
  | _ =>
      let width := width_of st base fixed l in
      match all_lines (entry_line st comment base width) l with
      | None => None
      | Some ls => Some match st with
                        | Box => [rule_line comment width; blank_line comment width] ++ ls ++ [blank_line comment width; rule_line comment width]
                        | Left => ls
                        end
      end
  end.
(** __str__ (280-287) *)
Definition text_of (ls : list str) : str := flat_map (fun l => l ++ [10]) ls.

(** ** parse_header *)
Section Parser.
(** What json.loads reads; strings among the values and the text of one; value += text (None: TypeError) *)
Context {J : Type} (loads : str -> option J) (of_text : str -> J) (as_text : J -> option str) (plus : J -> str -> option J).
Inductive node := Val (j : J) | Dict (l : list (str * node)).
Notation dict := (list (str * node)).
Fixpoint get (d : dict) (k : str) : option node := match d with [] => None | (k', v) :: d => if str_eqb k' k then Some v else get d k end.
Fixpoint put (d : dict) (k : str) (v : node) : dict :=
  match d with [] => [(k, v)] | (k', v') :: d => if str_eqb k' k then (k', v) :: d else (k', v') :: put d k v end.
(** header, active (as the keys that lead to active[-1]), curr_indent, base_indent (360-364) *)
Record state := mkS { p_root : dict; p_path : list str; p_curr : Z; p_base : Z }.
(** A change of the dictionary active[-1].  (The path always leads to dictionaries.) *)
Fixpoint edit (path : list str) (f : dict -> res dict) (d : dict) : res dict :=
  match path with
  | [] => f d
  | k :: p => match get d k with Some (Dict d') => bind (edit p f d') (fun e => Ok (put d k (Dict e))) | _ => Raise TypeError end
  end.
Definition dots : str := [46; 46; 46; 32].
(** s.replace('... ', '') *)
Fixpoint drop_dots (skip : nat) (s : str) : str :=
  match s with
  | [] => []
  | c :: r => match skip with
              | S n => drop_dots n r
              | O => if starts_with dots s then drop_dots 3 r else c :: drop_dots 0 r
              end
  end.
(** json.loads unless the next line continues this one; on failure the text as it is (439-444, 476-481, 514-519) *)
Definition loaded (will : bool) (t : str) : J := if will then of_text t else match loads t with Some j => j | None => of_text t end.
(** A line without a key (419-435, 494-510) *)
Definition free_text : str := [95; 102; 114; 101; 101; 102; 111; 114; 109].
Definition continue_ (will : bool) (value : str) (d : dict) : res dict :=
  let '(k, d) := match d with [] => (free_text, [(free_text, Val (of_text []))]) | _ => (fst (last d ([], Dict [])), d) end in
  match get d k with
  | Some (Val j) =>
      match plus j (drop_dots 0 value) with
      | None => Raise TypeError
      | Some j' => if will then Ok (put d k (Val j')) else
                   match as_text j' with
                   | None => Raise TypeError
                   | Some t => Ok (put d k (Val match loads t with Some v => v | None => j' end))
                   end
      end
  | _ => Raise TypeError
  end.
Definition to_value (will : bool) (k v : str) (d : dict) : res dict := Ok (put d k (Val (loaded will v))).
Definition to_section (k : str) (d : dict) : res dict := Ok (put d k (Dict [])).
(** Popping [n] of active, but never the first (450-456) *)
Definition pop (n : Z) (path : list str) : list str := firstn (length path - Z.to_nat n) path.
(** One line (365-519); [next] is contents[i+1] *)
Definition step (comment : Z) (s : state) (line : str) (next : option str) : res state :=
  if negb (starts_with [comment] line) then Ok s else
  let line := rstrip (drop_char comment line) in
  match line with
  | [] => Ok s
  | _ =>
    let indent := zlen line - zlen (lstrip line) in
    let '(key, value) := match split1 58 line with Some (a, b) => (strip a, strip b) | None => ([], strip line) end in
    let will i := match next with Some n => starts_with ([comment] ++ spaces i ++ dots) n | None => false end in
    if p_curr s <? indent then
      let base := if p_curr s =? -1 then indent else p_base s in
      match value with
      | [] => bind (edit (p_path s) (to_section key) (p_root s)) (fun r => Ok (mkS r (p_path s ++ [key]) indent base))
      | _ => bind (edit (p_path s) (match key with [] => continue_ (will indent) value | _ => to_value (will indent) key value end) (p_root s)) (fun r => Ok (mkS r (p_path s) indent base))
      end
    else if indent <? p_curr s then
      if p_base s =? 0 then Raise ZeroDivisionError else
      let path := pop ((p_curr s - indent) / p_base s) (p_path s) in
      match value with
      | [] => bind (edit path (to_section key) (p_root s)) (fun r => Ok (mkS r (path ++ [key]) indent (p_base s)))
      | _ => bind (edit path (to_value (will indent) key value) (p_root s)) (fun r => Ok (mkS r path indent (p_base s)))
      end
    else
      bind (edit (p_path s) (match key with [] => continue_ (will indent) value | _ => to_value (will indent) key value end) (p_root s)) (fun r => Ok (mkS r (p_path s) indent (p_base s)))
  end.
Fixpoint steps (comment : Z) (s : state) (ls : list str) : res state :=
  match ls with [] => Ok s | l :: ls => bind (step comment s l (hd_error ls)) (fun s => steps comment s ls) end.
Definition parse_lines (comment : Z) (ls : list str) : res dict := bind (steps comment (mkS [] [] (-1) (-1)) ls) (fun s => Ok (p_root s)).
(** contents.split('\n') for a string (357-358) *)
Definition parse_header (comment : Z) (text : str) : res dict := parse_lines comment (split 10 text).
End Parser.
Arguments node : clear implicits.
