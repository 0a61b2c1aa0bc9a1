(** Model of lsl/common/color.py: texts are lists of characters by their numbers.  A result None is a loop that has not ended after so many steps. *)
From Coq Require Import String Ascii List ZArith Bool.
From Verif Require Import M_Py M_Str.
Import ListNotations.
Open Scope Z_scope.

Fixpoint lit (s : string) : str := match s with EmptyString => [] | String c r => Z.of_N (N_of_ascii c) :: lit r end.
(** _COLORS (18-38) *)
Definition seq_of (n : list Z) : str := [27; 91] ++ n ++ [109].
Definition colors : list (str * str) :=
  [(lit "black", seq_of [51; 48]); (lit "red", seq_of [51; 49]); (lit "green", seq_of [51; 50]); (lit "yellow", seq_of [51; 51]);
   (lit "blue", seq_of [51; 52]); (lit "magenta", seq_of [51; 53]); (lit "cyan", seq_of [51; 54]); (lit "white", seq_of [51; 55]);
   (lit "bkg-black", seq_of [52; 48]); (lit "bkg-red", seq_of [52; 49]); (lit "bkg-green", seq_of [52; 50]); (lit "bkg-yellow", seq_of [52; 51]);
   (lit "bkg-blue", seq_of [52; 52]); (lit "bkg-magenta", seq_of [52; 53]); (lit "bkg-cyan", seq_of [52; 54]); (lit "bkg-white", seq_of [52; 55]);
   (lit "reset", seq_of [48]); (lit "bold", seq_of [49]); (lit "underline", seq_of [52]); (lit "blink", seq_of [53]); (lit "reverse", seq_of [55])].
Definition reset : str := seq_of [48].

(** _label (41-80): [s] is the text from the position on; the result is the new text from there on.  An opening takes the position five on, wherever that is in the new text. *)
Definition put {A} (a : list A) (r : option (res (list A))) : option (res (list A)) := match r with Some (Ok b) => Some (Ok (a ++ b)) | r => r end.
Fixpoint label (fuel : nat) (level : Z) (s : str) : option (res str) :=
  match fuel with
  | O => None
  | S fuel =>
    match s with
    | [] => Some (Ok [])
    | c :: rest =>
      let tag := firstn 2 s in
      let post := skipn 2 s in
      if str_eqb tag [123; 123] then
        match post with
        | [] => Some (Raise IndexError)
        | x :: _ =>
          if x =? 37 then let s := [123; 123] ++ dec level ++ tag ++ post in put (firstn 5 s) (label fuel (level + 1) (skipn 5 s))
          else put [c] (label fuel level rest)
        end
      else if str_eqb tag [125; 125] then
        if 0 <=? level - 1 then let s := tag ++ dec (level - 1) ++ [125; 125] ++ post in put (firstn 5 s) (label fuel (level - 1) (skipn 5 s))
        else put [c] (label fuel (level - 1) rest)
      else put [c] (label fuel level rest)
    end
  end.

Fixpoint strip_prefix (p s : str) : option str :=
  match p, s with
  | [], _ => Some s
  | a :: p, b :: s => if a =? b then strip_prefix p s else None
  | _, [] => None
  end.
Fixpoint span (f : Z -> bool) (s : str) : str * str := match s with c :: r => if f c then let (a, b) := span f r in (c :: a, b) else ([], s) | [] => ([], []) end.
(** nestRE (112-113): all depths; matches cannot overlap *)
Definition depth_at (s : str) : list Z :=
  match strip_prefix [123; 123] s with
  | Some s => let (d, s) := span is_digit s in
      match d, strip_prefix [123; 123; 37] s with _ :: _, Some _ => match parse_int d with Some n => [n] | None => [] end | _, _ => [] end
  | None => []
  end.
Fixpoint depths (s : str) : list Z := match s with [] => [] | _ :: r => depth_at s ++ depths r end.
(** tagRE (119): a match at the beginning of the text: the tag, the text and what follows.  '.' is not a newline. *)
Definition opener (level : Z) : str := [123; 123] ++ dec level ++ [123; 123; 37].
Definition closer (level : Z) : str := [125; 125] ++ dec level ++ [125; 125].
Definition name_char (c : Z) : bool := (97 <=? c) && (c <=? 122) || (65 <=? c) && (c <=? 90) || (c =? 45).
Fixpoint upto (close s : str) : option (str * str) :=
  match strip_prefix close s with
  | Some r => Some ([], r)
  | None => match s with
            | [] => None
            | x :: s => if x =? 10 then None else match upto close s with Some (a, b) => Some (x :: a, b) | None => None end
            end
  end.
Definition match_at (level : Z) (s : str) : option (str * str * str) :=
  match strip_prefix (opener level) s with
  | None => None
  | Some s => let (n, s) := span name_char s in
      match n, s with
      | _ :: _, x :: s => if x =? 32 then match upto (closer level) s with Some (t, s) => Some (n, t, s) | None => None end else None
      | _, _ => None
      end
  end.
(** tagRE.search *)
Fixpoint search (level : Z) (s : str) : option (str * str * str * str) :=
  match match_at level s with
  | Some (n, t, post) => Some ([], n, t, post)
  | None => match s with [] => None | x :: s => match search level s with Some (pre, n, t, post) => Some (x :: pre, n, t, post) | None => None end end
  end.
(** str.replace; [k] characters are passed over *)
Fixpoint replace (old new : str) (k : nat) (s : str) : str :=
  match s with
  | [] => []
  | x :: r => match k with
              | S k => replace old new k r
              | O => if starts_with old s then new ++ replace old new (length old - 1) r else x :: replace old new 0 r
              end
  end.
Definition lower (s : str) : str := map (fun c => if (65 <=? c) && (c <=? 90) then c + 32 else c) s.
Fixpoint assoc (k : str) (l : list (str * str)) : str := match l with [] => [] | (a, b) :: l => if str_eqb k a then b else assoc k l end.
(** the conversion of a match (127-139) *)
Definition encoded (name txt : str) : str := let tag := assoc (lower name) colors in replace reset (reset ++ tag) 0 (tag ++ txt) ++ reset.
(** one level (117-146).  re.sub replaces the first match of the whole text.  The escapes of its template (backslashes in the text) are left out. *)
Fixpoint convert (fuel : nat) (level : Z) (pos : nat) (text : str) : option str :=
  match fuel with
  | O => None
  | S fuel =>
    match search level (skipn pos text) with
    | None => Some text
    | Some (pre, n, t, _) =>
      if (pos <? length text)%nat then
        let text := match search level text with Some (p, _, _, q) => p ++ encoded n t ++ q | None => text end in
        convert fuel level (pos + length pre + 1) text
      else Some text
    end
  end.
Fixpoint passes (fuel : nat) (levels : nat) (text : str) : option str :=
  match levels with O => Some text | S k => match convert fuel (Z.of_nat k) 0 text with Some t => passes fuel k t | None => None end end.
(** colorfy (83-149) *)
Definition colorfy (fuel : nat) (text : str) : option (res str) :=
  match label fuel 0 text with
  | Some (Ok t) => match passes fuel (S (Z.to_nat (fold_right Z.max 0 (depths t)))) t with Some r => Some (Ok r) | None => None end
  | r => r
  end.
(** uncolorfy (152-163) *)
Definition uncolorfy (text : str) : str := fold_left (fun t c => replace (snd c) [] 0 t) colors text.
