(** Marked text, and what a terminal shows. *)
From Coq Require Import String Ascii List ZArith Bool.
Import ListNotations.
Open Scope Z_scope.

(** Text with tags in it, one in the other: {{%name text}} *)
Inductive doc := Nil | Txt (s : list Z) (r : doc) | Tag (name : list Z) (b r : doc).
Fixpoint chars (s : string) : list Z := match s with EmptyString => [] | String c r => Z.of_N (N_of_ascii c) :: chars r end.
Fixpoint write (d : doc) : list Z :=
  match d with
  | Nil => []
  | Txt s r => s ++ write r
  | Tag n b r => chars "{{%" ++ n ++ chars " " ++ write b ++ chars "}}" ++ write r
  end.
Fixpoint words (d : doc) : list Z := match d with Nil => [] | Txt s r => s ++ words r | Tag _ b r => words b ++ words r end.
Fixpoint depth (d : doc) : Z := match d with Nil => 0 | Txt _ r => depth r | Tag _ b r => Z.max (1 + depth b) (depth r) end.
(** plain text: no braces, backslashes, newlines or escapes; a name has letters and dashes *)
Definition plain_char (c : Z) : Prop := c <> 123 /\ c <> 125 /\ c <> 92 /\ c <> 10 /\ c <> 27.
Definition letter (c : Z) : Prop := 97 <= c <= 122 \/ 65 <= c <= 90 \/ c = 45.
Fixpoint fair (d : doc) : Prop :=
  match d with Nil => True | Txt s r => Forall plain_char s /\ fair r | Tag n b r => n <> [] /\ Forall letter n /\ fair b /\ fair r end.

(** A terminal: the colors and styles in force; ESC [ n m changes them, anything else is shown in them *)
Record style := mkStyle { ink : option Z; ground : option Z; bold : bool; underline : bool; blink : bool; reverse : bool }.
Definition usual : style := mkStyle None None false false false false.
Definition sgr (n : Z) (st : style) : style :=
  if n =? 0 then usual
  else if n =? 1 then mkStyle (ink st) (ground st) true (underline st) (blink st) (reverse st)
  else if n =? 4 then mkStyle (ink st) (ground st) (bold st) true (blink st) (reverse st)
  else if n =? 5 then mkStyle (ink st) (ground st) (bold st) (underline st) true (reverse st)
  else if n =? 7 then mkStyle (ink st) (ground st) (bold st) (underline st) (blink st) true
  else if (30 <=? n) && (n <=? 37) then mkStyle (Some (n - 30)) (ground st) (bold st) (underline st) (blink st) (reverse st)
  else if (40 <=? n) && (n <=? 47) then mkStyle (ink st) (Some (n - 40)) (bold st) (underline st) (blink st) (reverse st)
  else st.
Fixpoint screen (st : style) (s : list Z) : list (Z * style) :=
  match s with
  | [] => []
  | c :: s1 => if c =? 27 then
      match s1 with
      | _ :: a :: b :: s2 => if b =? 109 then screen (sgr (a - 48) st) s2 else match s2 with _ :: s3 => screen (sgr (10 * (a - 48) + (b - 48)) st) s3 | [] => [] end
      | _ => []
      end
    else (c, st) :: screen st s1
  end.
(** The documented names; any case *)
Definition shade (n : Z) (st : style) : style := mkStyle (Some n) (ground st) (bold st) (underline st) (blink st) (reverse st).
Definition backed (n : Z) (st : style) : style := mkStyle (ink st) (Some n) (bold st) (underline st) (blink st) (reverse st).
Definition small (c : Z) : Z := if (65 <=? c) && (c <=? 90) then c + 32 else c.
Definition hues : list string := ["black"; "red"; "green"; "yellow"; "blue"; "magenta"; "cyan"; "white"]%string.
Fixpoint nth_of (w : list Z) (l : list string) (k : Z) : option Z := match l with [] => None | a :: l => if list_eq_dec Z.eq_dec w (chars a) then Some k else nth_of w l (k + 1) end.
Definition is (w : list Z) (s : string) : bool := if list_eq_dec Z.eq_dec w (chars s) then true else false.
Definition tint (name : list Z) (st : style) : style :=
  let w := map small name in
  match nth_of w hues 0 with
  | Some k => shade k st
  | None => match nth_of w (map (fun a => "bkg-" ++ a)%string hues) 0 with
            | Some k => backed k st
            | None => if is w "bold" then mkStyle (ink st) (ground st) true (underline st) (blink st) (reverse st)
                      else if is w "underline" then mkStyle (ink st) (ground st) (bold st) true (blink st) (reverse st)
                      else if is w "blink" then mkStyle (ink st) (ground st) (bold st) (underline st) true (reverse st)
                      else if is w "reverse" then mkStyle (ink st) (ground st) (bold st) (underline st) (blink st) true
                      else st
            end
  end.
(** What is meant: each character in the styles of the tags around it, the outer first *)
Fixpoint seen (st : style) (d : doc) : list (Z * style) :=
  match d with Nil => [] | Txt s r => map (fun c => (c, st)) s ++ seen st r | Tag n b r => seen (tint n st) b ++ seen st r end.
(** Two examples *)
Definition demo : doc := Txt (chars "a") (Tag (chars "Red") (Txt (chars "b") (Tag (chars "bold") (Txt (chars "c") Nil) (Txt (chars "d") (Tag (chars "oops") (Txt (chars "e") Nil) Nil)))) (Txt (chars "f") Nil)).
Fixpoint nest (n : nat) : doc := match n with O => Txt (chars "a") Nil | S n => Tag (chars "red") (nest n) Nil end.
