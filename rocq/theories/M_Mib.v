(** Model of lsl/common/mcs.py: the values of MIB entries and access to a MIB (855-1155). *)
From Coq Require Import List ZArith Bool.
From Verif Require Import M_Py.
Import ListNotations.
Open Scope Z_scope.

Definition text := list Z.
Definition text_eqb (a b : text) : bool := if list_eq_dec Z.eq_dec a b then true else false.
(** A char array of a C structure is read as the bytes before the first zero (ctypes). *)
Fixpoint c_string (l : list Z) : list Z := match l with [] => [] | b :: r => if b =? 0 then [] else b :: c_string r end.
(** struct.unpack of [n] bytes: struct.error for any other number of them.  Floats are kept as their bits. *)
Definition unsigned (little : bool) (l : list Z) : Z := fold_right (fun b acc => b + 256 * acc) 0 (if little then l else rev l).
Definition unpack (n : nat) (little signed : bool) (l : list Z) : option Z :=
  if Nat.eqb (length l) n then
    let u := unsigned little l in Some (if signed && (2 ^ (8 * Z.of_nat n - 1) <=? u) then u - 2 ^ (8 * Z.of_nat n) else u)
  else None.
Inductive value := Text (t : text) | Int (z : Z) | Float (bits : Z).
Definition or_zero (o : option Z) : Z := match o with Some z => z | None => 0 end.
Definition prefix (p t : text) : bool := text_eqb (firstn (length p) t) p.
Section Mib.
  (** str(value, 'utf-8') *)
  Variable utf8 : list Z -> res text.
  (** MIBEntry._parse_value (999-1085); the letters are a = 97, f = 102, i = 105, r = 114, s = 115, u = 117. *)
  Definition parse_value (v : list Z) (ty : text) : res value :=
    if text_eqb ty [78; 85; 76] || text_eqb ty [] then bind (utf8 v) (fun t => Ok (Text t))
    else if prefix [97] ty then bind (utf8 v) (fun t => Ok (Text t))
    else if prefix [114] ty then bind (utf8 v) (fun t => Ok (Text t))
    else if prefix [105; 49; 117] ty then Ok (Int (or_zero (unpack 1 true false v)))
    else if prefix [105; 50; 117] ty then Ok (Int (or_zero (unpack 2 true false v)))
    else if prefix [105; 52; 117] ty then Ok (Int (or_zero (unpack 4 true false v)))
    else if prefix [105; 52; 115] ty then Ok (Int (or_zero (unpack 4 true true v)))
    else if prefix [105; 56; 117] ty then Ok (Int (or_zero (unpack 8 true false v)))
    else if prefix [102; 52; 114] ty then Ok (Float (or_zero (unpack 4 false false v)))
    else if prefix [102; 52] ty then Ok (Float (or_zero (unpack 4 true false v)))
    else if prefix [102; 56; 114] ty then Ok (Float (or_zero (unpack 8 false false v)))
    else if prefix [102; 56] ty then Ok (Float (or_zero (unpack 8 true false v)))
    else Raise ValueError.
  (** A record of the database by the fields of its structure (1106-1117).  The time is not modelled. *)
  Record record := mkRec { r_etype : Z; r_index : list Z; r_val : list Z; r_dbm : list Z; r_icd : list Z }.
  Record entry := mkEntry { e_index : text; e_value : value; e_dbm : text; e_icd : text }.
  (** The str() of bytes (1123-1126), which begins with b. *)
  Definition bytes_repr (l : list Z) : text := 98 :: 39 :: l ++ [39].
  (** MIBEntry.from_entry (1087-1155). *)
  Definition from_entry (r : record) : res entry :=
    let '(index, dbm, icd) :=
      match utf8 (c_string (r_index r)), utf8 (c_string (r_dbm r)), utf8 (c_string (r_icd r)) with
      | Ok a, Ok b, Ok c => (a, b, c)
      | _, _, _ => (bytes_repr (c_string (r_index r)), bytes_repr (c_string (r_dbm r)), bytes_repr (c_string (r_icd r)))
      end in
    if r_etype r =? 0 then Raise ValueError
    else match index with
         | [] => Raise ValueError
         | c :: _ => if (48 <=? c) && (c <=? 57) then bind (parse_value (c_string (r_val r)) dbm) (fun v => Ok (mkEntry index v dbm icd)) else Raise ValueError
         end.
  (** A dictionary: d[k] = v and d[k]. *)
  Fixpoint put {A} (k : text) (v : A) (d : list (text * A)) : list (text * A) :=
    match d with [] => [(k, v)] | (k', v') :: r => if text_eqb k' k then (k', v) :: r else (k', v') :: put k v r end.
  Fixpoint lookup {A} (k : text) (d : list (text * A)) : option A :=
    match d with [] => None | (k', v) :: r => if text_eqb k' k then Some v else lookup k r end.
  Record mib := mkMib { entries : list (text * entry); mapper : list (text * text); inv_mapper : list (text * text) }.
  (** The lines of an initialization file by their fields (918-937): too few are a ValueError; B is 66. *)
  Fixpoint init_lines (m : mib) (ls : list (list text)) : res mib :=
    match ls with
    | [] => Ok m
    | [ty; index; name; _; _; _] :: r =>
        if text_eqb ty [66] then init_lines m r
        else init_lines (mkMib (entries m) (put index name (mapper m)) (put name index (inv_mapper m))) r
    | _ :: _ => Raise ValueError
    end.
  Definition parse_init (m : mib) (ls : list (list text)) : res mib := init_lines (mkMib (entries m) [] []) ls.
  (** The loop over the records of the database (957-968): entries with a ValueError, and the decoding error is one, are left out. *)
  Fixpoint load (m : mib) (rs : list record) : res mib :=
    match rs with
    | [] => Ok m
    | r :: rest => match from_entry r with
                   | Ok e => load (mkMib (put (e_index e) e (entries m)) (mapper m) (inv_mapper m)) rest
                   | Raise ValueError | Raise UnicodeError => load m rest
                   | Raise e => Raise e
                   end
    end.
  (** MIB.__getitem__ (880-888) and keys (890-907). *)
  Definition getitem (m : mib) (k : text) : res entry :=
    match lookup k (entries m) with
    | Some e => Ok e
    | None => match lookup k (inv_mapper m) with
              | None => Raise KeyError
              | Some i => match lookup i (entries m) with Some e => Ok e | None => Raise KeyError end
              end
    end.
  Definition keys (m : mib) (name : bool) : list text :=
    if name then map (fun k => match lookup k (mapper m) with Some n => n | None => k end) (map fst (entries m)) else map fst (entries m).
End Mib.
