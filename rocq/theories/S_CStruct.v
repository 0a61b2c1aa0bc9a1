(** Specification for C103: C structure declarations and the bytes of a structure on a 64-bit Linux machine. *)
From Coq Require Import String.
From Coq Require Import List ZArith Bool.
From Verif Require Import M_CStruct.
Import ListNotations.
Open Scope Z_scope.

(** ** Types and declarations *)
Inductive ctype := Int | UInt | Short | UShort | Long | ULong | LongLong | ULongLong | Float | Double | Char | SChar | UChar.
Definition bytes_of (t : ctype) : nat :=
  match t with
  | Char | SChar | UChar => 1 | Short | UShort => 2 | Int | UInt | Float => 4
  | Long | ULong | LongLong | ULongLong | Double => 8
  end%nat.
(** Whether the bytes are read as a signed number: a plain char is when characters are asked for as numbers;
    a floating point number is its bit pattern. *)
Definition signed (char_int : bool) (t : ctype) : bool :=
  match t with Int | Short | Long | LongLong | SChar => true | Char => char_int | _ => false end.
(** The spellings of each type, words one space apart. *)
Definition spellings (t : ctype) : list str :=
  map cs match t with
         | Int => ["int"; "signed int"] | UInt => ["unsigned int"]
         | Short => ["short"; "short int"; "signed short"; "signed short int"]
         | UShort => ["unsigned short"; "unsigned short int"]
         | Long => ["long"; "long int"; "signed long"; "signed long int"]
         | ULong => ["unsigned long"; "unsigned long int"]
         | LongLong => ["long long"; "signed long long"] | ULongLong => ["unsigned long long"]
         | Float => ["float"] | Double => ["double"]
         | Char => ["char"] | SChar => ["signed char"] | UChar => ["unsigned char"]
         end%string.
Record decl := mkDecl { d_name : str; d_type : ctype; d_dims : list Z }.
Definition d_count (d : decl) : Z := fold_right Z.mul 1 (d_dims d).
Definition d_bytes (d : decl) : Z := Z.of_nat (bytes_of (d_type d)).

(** ** The text of a declaration *)
Definition letter_digit (c : Z) : Prop := 97 <= c <= 122 \/ 65 <= c <= 90 \/ 48 <= c <= 57 \/ c = 95.
Definition capital (c : Z) : Prop := 65 <= c <= 90 \/ c = 95.
Definition blank (c : Z) : Prop := c = 32 \/ c = 9.
(** An array dimension is a sum of products of numbers and constants. *)
Inductive atom := Num (n : Z) | Mac (c : Z) (name : str).
Definition atom_text (a : atom) : str := match a with Num n => dec n | Mac c s => c :: s end.
Definition atom_value (macros : str -> option Z) (a : atom) (v : Z) : Prop :=
  match a with
  | Num n => 0 <= n /\ v = n
  | Mac c s => capital c /\ Forall (fun x => capital x \/ 48 <= x <= 57) s /\ macros (c :: s) = Some v
  end.
Definition dim_text (e : list (list atom)) : str := join 43 (map (fun p => join 42 (map atom_text p)) e).
Definition dim_value (macros : str -> option Z) (e : list (list atom)) (v : Z) : Prop :=
  e <> [] /\ Forall (fun p => p <> []) e /\
  exists vs, Forall2 (Forall2 (atom_value macros)) e vs /\ v = fold_right Z.add 0 (map (fold_right Z.mul 1) vs).
Definition dims_text (es : list (list (list atom))) : str := concat (map (fun e => 91 :: dim_text e ++ [93]) es).

(** A line of the text and what it declares. *)
Inductive line_says (macros : str -> option Z) : str -> option decl -> Prop :=
| Blank_line : forall s, Forall blank s -> line_says macros s None
| Comment_line : forall ind s, Forall blank ind -> Forall (fun c => c <> 10) s -> line_says macros (ind ++ [47; 47] ++ s) None
| Decl_line : forall d ind sp gap es trailer,
    Forall blank ind -> In sp (spellings (d_type d)) -> Forall blank gap -> gap <> [] ->
    d_name d <> [] -> Forall letter_digit (d_name d) ->
    (length es <= 4)%nat -> Forall2 (dim_value macros) es (d_dims d) ->
    Forall (fun c => c <> 10 /\ c <> 123 /\ c <> 125) trailer ->           (* no braces in the comment *)
    line_says macros (ind ++ sp ++ gap ++ d_name d ++ dims_text es ++ [59] ++ trailer) (Some d).
Definition declared (l : list (option decl)) : list decl :=
  flat_map (fun o => match o with Some d => [d] | None => [] end) l.

(** ** The bytes of a structure: every field at the first multiple of its size, the whole a multiple of the largest. *)
Definition in_range (char_int : bool) (t : ctype) (v : Z) : Prop :=
  let n := 8 * Z.of_nat (bytes_of t) in
  if signed char_int t then - 2 ^ (n - 1) <= v < 2 ^ (n - 1) else 0 <= v < 2 ^ n.
Definition encode (big : bool) (t : ctype) (v : Z) : list Z :=
  let b := v mod 2 ^ (8 * Z.of_nat (bytes_of t)) in if big then be (bytes_of t) b else le (bytes_of t) b.
(** [body big ci pos l bs]: the fields [l] with their values, starting [pos] bytes into the structure, are the bytes [bs];
    the filling may be anything. *)
Inductive body (big char_int : bool) : Z -> list (decl * list Z) -> list Z -> Prop :=
| Body_nil : forall pos, body big char_int pos [] []
| Body_cons : forall pos d vs l pad rest,
    bytes_ok pad -> zlen pad < d_bytes d -> (d_bytes d | pos + zlen pad) ->
    zlen vs = d_count d -> Forall (in_range char_int (d_type d)) vs ->
    body big char_int (pos + zlen pad + d_bytes d * zlen vs) l rest ->
    body big char_int pos ((d, vs) :: l) (pad ++ concat (map (encode big (d_type d)) vs) ++ rest).
Definition largest (ds : list decl) : Z := fold_right (fun d m => Z.max (d_bytes d) m) 1 ds.
Definition image (big char_int : bool) (l : list (decl * list Z)) (bs : list Z) : Prop :=
  exists b pad, bs = b ++ pad /\ body big char_int 0 l b /\ bytes_ok pad /\ zlen pad < largest (map fst l) /\ (largest (map fst l) | zlen bs).

(** The value of a constant: an override, else the constants of the package. *)
Definition constant (overrides : list (str * Z)) (k : str) : option Z :=
  match lookup overrides k with Some v => Some v | None => lookup mcs_macros k end.
