(** Model of parse_c_struct (lsl/common/mcs.py 330-523): reading a C structure declaration, the layout ctypes
    gives it, and the reading of such a structure from a file with readinto.
    Text is a list of code points, memory a list of bytes. *)
From Coq Require Import String Ascii.
From Coq Require Import List ZArith Bool.
From Verif Require Export M_Py LibList LibBytes M_Str.
Import ListNotations.
Open Scope Z_scope.

(** A string literal of the source as code points. *)
Definition cs (s : string) : str := map (fun a => Z.of_N (N_of_ascii a)) (list_ascii_of_string s).

(** ** Types.  The ctypes types used (408-436): an integer of a number of bytes, signed or not; a floating point
    number, kept here as its bit pattern; c_char, one byte, kept as its code. *)
Inductive base := CInt (bytes : nat) (signed : bool) | CFloat (bytes : nat) | CChar.
Definition width (b : base) : nat := match b with CInt n _ => n | CFloat n => n | CChar => 1%nat end.
(** One entry of the fields list with its dims2 entry (439-456): no dimensions for a scalar. *)
Record field := mkField { fname : str; fbase : base; fdims : list Z }.
Definition count (f : field) : Z := fold_left Z.mul (fdims f) 1.

(** ** One declaration line: _cDecRE.search (330, 383).
    The regular expression has one way to match from a given place: the type is the text up to the last blank of
    the run of small letters and blanks that starts there, because anything after an earlier blank is followed by
    another blank, which neither a name nor a bracket nor ';' can be. *)
Definition is_lower (c : Z) : bool := (97 <=? c) && (c <=? 122).
Definition is_upper (c : Z) : bool := (65 <=? c) && (c <=? 90).
Definition is_blank (c : Z) : bool := (c =? 32) || (c =? 9).
Definition type_char (c : Z) : bool := is_lower c || is_blank c.
Definition name_char (c : Z) : bool := is_lower c || is_upper c || (c =? 95) || is_digit c.
Definition dim_char (c : Z) : bool := (c =? 42) || (c =? 43) || is_upper c || (c =? 95) || is_digit c.
Fixpoint span (p : Z -> bool) (s : str) : str * str :=
  match s with
  | [] => ([], [])
  | c :: r => if p c then let '(a, b) := span p r in (c :: a, b) else ([], s)
  end.
(** The part before the last blank and the part after it. *)
Fixpoint last_blank (s : str) : option (str * str) :=
  match s with
  | [] => None
  | c :: r => match last_blank r with
              | Some (a, b) => Some (c :: a, b)
              | None => if is_blank c then Some ([], r) else None
              end
  end.
(** Up to [n] groups of the form [[dim]]. *)
Fixpoint groups (n : nat) (s : str) : list str * str :=
  match n, s with
  | S k, 91 :: r =>
      let '(d, r') := span dim_char r in
      match d, r' with
      | _ :: _, 93 :: r'' => let '(ds, e) := groups k r'' in (d :: ds, e)
      | _, _ => ([], s)
      end
  | _, _ => ([], s)
  end.
Definition match_at (s : str) : option (str * str * list str) :=
  match s with
  | c :: _ =>
      if is_lower c then
        let '(run, rest) := span type_char s in
        match last_blank run with
        | Some (ty, word) =>
            if 2 <=? zlen ty then
              let '(name, rest1) := span name_char (word ++ rest) in
              match name with
              | [] => None
              | _ => let '(ds, rest2) := groups 4 rest1 in
                     match rest2 with 59 :: _ => Some (ty, name, ds) | _ => None end
              end
            else None
        | None => None
        end
      else None
  | [] => None
  end.
Fixpoint search (s : str) : option (str * str * list str) :=
  match match_at s with
  | Some m => Some m
  | None => match s with [] => None | _ :: r => search r end
  end.

(** ** Array dimensions: eval(d, None, ndp_macros) (392-405).
    Modelled: sums of products of decimal numbers and macro names; a name that is not a macro is the NameError
    turned into RuntimeError.  Simplification: the other forms the characters allow ('**', a leading '+', a number
    starting with 0) are given as RuntimeError as well; names of the module or of Python that are not macros count
    as unknown. *)
Definition all_digits (s : str) : bool := match s with [] => false | _ => forallb is_digit s end.
Definition lookup (m : list (str * Z)) (k : str) : option Z :=
  match find (fun e => str_eqb (fst e) k) m with Some (_, v) => Some v | None => None end.
Definition factor (m : list (str * Z)) (s : str) : option Z :=
  if all_digits s then Some (fold_left (fun a c => 10 * a + (c - 48)) s 0) else lookup m s.
Fixpoint opt_all {A} (l : list (option A)) : option (list A) :=
  match l with
  | [] => Some []
  | Some x :: r => match opt_all r with Some xs => Some (x :: xs) | None => None end
  | None :: _ => None
  end.
Definition product (m : list (str * Z)) (s : str) : option Z :=
  match opt_all (map (factor m) (split 42 s)) with Some l => Some (fold_left Z.mul l 1) | None => None end.
Definition dimension (m : list (str * Z)) (s : str) : option Z :=
  match opt_all (map (product m) (split 43 s)) with Some l => Some (fold_left Z.add l 0) | None => None end.

(** ** The table of types (408-436) *)
Definition type_table (char_int : bool) : list (str * base) :=
  [(cs "signed int", CInt 4 true); (cs "int", CInt 4 true); (cs "unsigned int", CInt 4 false);
   (cs "signed short int", CInt 2 true); (cs "signed short", CInt 2 true); (cs "short int", CInt 2 true); (cs "short", CInt 2 true);
   (cs "unsigned short int", CInt 2 false); (cs "unsigned short", CInt 2 false);
   (cs "signed long int", CInt 8 true); (cs "signed long", CInt 8 true); (cs "long int", CInt 8 true); (cs "long", CInt 8 true);
   (cs "unsigned long int", CInt 8 false); (cs "unsigned long", CInt 8 false);
   (cs "signed long long", CInt 8 true); (cs "long long", CInt 8 true); (cs "unsigned long long", CInt 8 false);
   (cs "float", CFloat 4); (cs "double", CFloat 8);
   (cs "char", if char_int then CInt 1 true else CChar); (cs "signed char", CInt 1 true); (cs "unsigned char", CInt 1 false)].
Definition type_of (char_int : bool) (d : str) : option base :=
  match find (fun e => str_eqb (fst e) d) (type_table char_int) with Some (_, b) => Some b | None => None end.

(** One line of the text (370-456): None for a line that is skipped.  [char_int]: char_mode == 'int'. *)
Definition parse_line (char_int : bool) (m : list (str * Z)) (line0 : str) : res (option field) :=
  let line := strip line0 in
  if existsb (fun c => (c =? 123) || (c =? 125)) line then Ok None
  else if starts_with [47; 47] line then Ok None
  else if zlen line <? 5 then Ok None
  else match search line with
       | None => Raise RuntimeError
       | Some (ty, name, ds) =>
           match opt_all (map (dimension m) ds) with
           | None => Raise RuntimeError
           | Some dims =>
               match type_of char_int (rstrip ty) with
               | None => Raise RuntimeError
               | Some b => Ok (Some (mkField name b dims))
               end
           end
       end.
Fixpoint parse_lines (char_int : bool) (m : list (str * Z)) (ls : list str) : res (list field) :=
  match ls with
  | [] => Ok []
  | l :: r => bind (parse_line char_int m l) (fun o =>
              bind (parse_lines char_int m r) (fun fs => Ok (match o with Some f => f :: fs | None => fs end)))
  end.

(** The integer constants of mcs.py 75-109 that __all__ lists. *)
Definition mcs_macros : list (str * Z) :=
  [(cs "ME_SSMIF_FORMAT_VERSION", 10); (cs "ME_MAX_NSTD", 256); (cs "ME_MAX_NFEE", 256); (cs "ME_MAX_FEEID_LENGTH", 10);
   (cs "ME_MAX_RACK", 8); (cs "ME_MAX_PORT", 50); (cs "ME_MAX_NRPD", 512); (cs "ME_MAX_RPDID_LENGTH", 25);
   (cs "ME_MAX_NSEP", 512); (cs "ME_MAX_SEPID_LENGTH", 25); (cs "ME_MAX_SEPCABL_LENGTH", 25); (cs "ME_MAX_NARB", 32);
   (cs "ME_MAX_NARBCH", 16); (cs "ME_MAX_ARBID_LENGTH", 10); (cs "ME_MAX_NSNAP", 16); (cs "ME_MAX_NSNAPCH", 64);
   (cs "ME_MAX_SNAPID_LENGTH", 10); (cs "ME_MAX_NSERVER", 5); (cs "ME_MAX_SERVERID_LENGTH", 10); (cs "ME_MAX_NDR", 5);
   (cs "ME_MAX_DRID_LENGTH", 10); (cs "ME_MAX_NDPOUT", 5); (cs "ME_MAX_NPWRPORT", 50); (cs "ME_MAX_SSNAME_LENGTH", 3);
   (cs "LWA_MAX_NSTD", 256); (cs "MIB_REC_TYPE_BRANCH", 0); (cs "MIB_REC_TYPE_VALUE", 1); (cs "MIB_INDEX_FIELD_LENGTH", 12);
   (cs "MIB_LABEL_FIELD_LENGTH", 32); (cs "MIB_VAL_FIELD_LENGTH", 8192); (cs "MAX_STP_N", 1024);
   (cs "LWA_CMD_STRUCT_DATA_FIELD_LENGTH", 256)].
(** parse_c_struct up to the list of fields (346-456): overrides come before the constants. *)
Definition parse_c_struct (char_int : bool) (overrides : list (str * Z)) (text : str) : res (list field) :=
  parse_lines char_int (overrides ++ mcs_macros) (split 10 text).

(** ** The layout ctypes gives (488-489): each field at the next multiple of its alignment, the whole padded to a
    multiple of the largest.  The alignment of an array is that of its elements; _pack_ = 8 limits nothing, no type
    is wider. *)
Definition align_up (a n : Z) : Z := if n mod a =? 0 then n else n + (a - n mod a).
Definition wz (f : field) : Z := Z.of_nat (width (fbase f)).
Fixpoint offsets (pos : Z) (fs : list field) : list Z :=
  match fs with
  | [] => []
  | f :: r => let o := align_up (wz f) pos in o :: offsets (o + wz f * count f) r
  end.
Fixpoint end_of (pos : Z) (fs : list field) : Z :=
  match fs with [] => pos | f :: r => end_of (align_up (wz f) pos + wz f * count f) r end.
Definition alignment (fs : list field) : Z := fold_left (fun a f => Z.max a (wz f)) fs 1.
Definition sizeof (fs : list field) : Z := align_up (alignment fs) (end_of 0 fs).

(** A new structure is filled with zeros; fh.readinto overwrites as many bytes as the file still has and returns
    without complaint.  The file is the list of bytes not yet read. *)
Definition fresh (fs : list field) : list Z := repeat 0 (Z.to_nat (sizeof fs)).
Definition readinto (mem rest : list Z) : list Z * list Z :=
  let got := ztake (zlen mem) rest in (got ++ zdrop (zlen got) mem, zdrop (zlen mem) rest).

(** Reading an attribute: the elements of the field in the order of the memory ([big]: BigEndianStructure). *)
Definition decode (big : bool) (b : base) (bytes : list Z) : Z :=
  let v := if big then be_val bytes else le_val bytes in
  match b with
  | CInt n true => if v <? 2 ^ (8 * Z.of_nat n - 1) then v else v - 2 ^ (8 * Z.of_nat n)
  | _ => v
  end.
Definition elements (big : bool) (f : field) (off : Z) (mem : list Z) : list Z :=
  map (fun j => decode big (fbase f) (ztake (wz f) (zdrop (off + wz f * j) mem))) (zseq 0 (Z.to_nat (count f))).
Fixpoint attr_at (big : bool) (fs : list field) (offs : list Z) (mem : list Z) (name : str) : option (list Z) :=
  match fs, offs with
  | f :: fs', o :: offs' => if str_eqb (fname f) name then Some (elements big f o mem) else attr_at big fs' offs' mem name
  | _, _ => None
  end.
(** getattr(struct, name) as the list of elements, one for a scalar; [] for a name that is not there.
    Simplification: two fields of one name are not considered. *)
Definition attr (big : bool) (fs : list field) (mem : list Z) (name : str) : list Z :=
  match attr_at big fs (offsets 0 fs) mem name with Some l => l | None => [] end.
(** The dims entry of a name. *)
Definition dims_of (fs : list field) (name : str) : list Z :=
  match find (fun f => str_eqb (fname f) name) fs with Some f => fdims f | None => [] end.
(** The value of an array of c_char: the bytes before the first NUL. *)
Fixpoint chars (l : list Z) : list Z := match l with [] => [] | c :: r => if c =? 0 then [] else c :: chars r end.
