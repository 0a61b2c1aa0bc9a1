(** Property theorems (generated from P_MibT.v by tools/gen_theorems.py). *)
From Coq Require Import List ZArith Bool Lia.
From Verif Require Import M_Py M_Mib S_Mib P_Mib P_MibT.
Import ListNotations.
Open Scope Z_scope.

(** C145: an unsigned integer is read as it is stored when none of its bytes is zero, or it is zero. *)
Theorem C145_values_partial : forall utf8 ty k v fill, In (ty, k) integer_types -> 0 <= v < 256 ^ Z.of_nat k -> (v = 0 \/ ~ has_zero_byte k v) ->
  parse_value utf8 (c_string (field k v fill)) ty = Ok (Int v).
Proof. exact C145_values_partial_proof. Qed.
Print Assumptions C145_values_partial.

(** C145: a text without zero bytes is read as it is stored. *)
Theorem C145_texts_partial : forall utf8 t fill n, ~ In 0 t -> utf8 t = Ok t -> parse_value utf8 (c_string (t ++ repeat 0 fill)) (97 :: n) = Ok (Text t).
Proof. exact C145_texts_partial_proof. Qed.
Print Assumptions C145_texts_partial.

(** C145: the same for signed integers, in two's complement. *)
Theorem C145_signed_partial : forall utf8 v fill, - 2 ^ 31 <= v < 2 ^ 31 -> (v = 0 \/ ~ has_zero_byte 4 v) ->
  parse_value utf8 (c_string (field 4 v fill)) [105; 52; 115] = Ok (Int v).
Proof. exact C145_signed_partial_proof. Qed.
Print Assumptions C145_signed_partial.

(** C145: a float, by its bits, is read as stored in either order of bytes when none of its bytes is zero, or all are, and as 0
    otherwise. *)
Theorem C145_floats_refuted : forall utf8 ty k lowest_first bits fill, In (ty, (k, lowest_first)) float_types -> 0 <= bits < 256 ^ Z.of_nat k ->
  (bits = 0 \/ ~ has_zero_byte k bits -> parse_value utf8 (c_string (float_field k lowest_first bits fill)) ty = Ok (Float bits)) /\
  (has_zero_byte k bits -> parse_value utf8 (c_string (float_field k lowest_first bits fill)) ty = Ok (Float 0)).
Proof. exact C145_floats_refuted_proof. Qed.
Print Assumptions C145_floats_refuted.

(** C145: the value is cut off at its first zero byte, so an integer with a zero byte, as any of several bytes that would fit in fewer,
    is read as 0; single bytes are read right. *)
Theorem C145_zero_byte_refuted : forall utf8 ty k v fill, In (ty, k) integer_types -> 0 <= v < 256 ^ Z.of_nat k ->
  (has_zero_byte k v -> parse_value utf8 (c_string (field k v fill)) ty = Ok (Int 0)) /\
  (v < 256 ^ (Z.of_nat k - 1) -> has_zero_byte k v) /\ (k = 1%nat -> parse_value utf8 (c_string (field k v fill)) ty = Ok (Int v)).
Proof. exact C145_zero_byte_refuted_proof. Qed.
Print Assumptions C145_zero_byte_refuted.

(** 257 as two bytes is read right, 256 is not, nor 5 as four bytes, nor the float 1. *)
Example C145_example : let u l := Ok l in
  parse_value u (c_string (field 2 257 3)) [105; 50; 117] = Ok (Int 257) /\ parse_value u (c_string (field 2 256 3)) [105; 50; 117] = Ok (Int 0) /\
  parse_value u (c_string (field 4 5 3)) [105; 52; 117] = Ok (Int 0) /\ parse_value u (c_string (field 4 1065353216 3)) [102; 52] = Ok (Float 0) /\
  parse_value u (c_string (field 4 (-1) 3)) [105; 52; 115] = Ok (Int (-1)) /\ parse_value u (c_string (float_field 4 false 1078530011 3)) [102; 52; 114] = Ok (Float 1078530011) /\ ~ has_zero_byte 2 257 /\ has_zero_byte 2 256.
Proof. exact C145_example_proof. Qed.

(** C146: a MIB loaded from a database holds for every index the last valid entry of the records, and nothing else: branches, indices
    that do not start with a digit, unknown types and texts that cannot be decoded are left out and no exception is raised. *)
Theorem C146_loaded : forall utf8 rs m, (forall l e, utf8 l = Raise e -> e = UnicodeError) -> entries m = [] ->
  exists m', load utf8 m rs = Ok m' /\ NoDup (keys m' false) /\ (forall k, In k (keys m' false) -> starts_with_digit k) /\
    forall k e, lookup k (entries m') = Some e <-> exists before r after, rs = before ++ r :: after /\ from_entry utf8 r = Ok e /\ e_index e = k /\
      forall r' e', In r' after -> from_entry utf8 r' = Ok e' -> e_index e' <> k.
Proof. exact C146_loaded_proof. Qed.
Print Assumptions C146_loaded.

(** C146: with an initialization file whose indices and names are distinct and whose names do not start with a digit, every name gives
    the entry of its index, and the names of keys(name=True) give, one by one, the entries of the indices of keys(). *)
Theorem C146_names_partial : forall utf8 pairs rs, (forall l e, utf8 l = Raise e -> e = UnicodeError) -> NoDup (map fst pairs) -> NoDup (map snd pairs) ->
  (forall n, In n (map snd pairs) -> ~ starts_with_digit n) ->
  exists m0 m, parse_init (mkMib [] [] []) (map (fun p => line (fst p) (snd p)) pairs) = Ok m0 /\ load utf8 m0 rs = Ok m /\
    (forall i n, In (i, n) pairs -> getitem m n = match lookup i (entries m) with Some e => Ok e | None => Raise KeyError end) /\
    Forall2 (fun i k => (In (i, k) pairs \/ (k = i /\ ~ In i (map fst pairs))) /\ exists e, lookup i (entries m) = Some e /\ getitem m i = Ok e /\ getitem m k = Ok e) (keys m false) (keys m true).
Proof. exact C146_names_partial_proof. Qed.
Print Assumptions C146_names_partial.

(** C146: when two indices have one name, it stands for both in keys(name=True) but gives only the entry of the second. *)
Theorem C146_same_name_refuted : forall i j n e f m, i <> j -> n <> i -> n <> j -> parse_init (mkMib [(i, e); (j, f)] [] []) [line i n; line j n] = Ok m ->
  keys m true = [n; n] /\ getitem m n = Ok f.
Proof. exact C146_same_name_refuted_proof. Qed.
Print Assumptions C146_same_name_refuted.

(** Three records, one of them of a branch, and a file that names the first index. *)
Example C146_example : let u l := if ascii l then Ok l else Raise UnicodeError in
  let rs := [mkRec 1 [49; 0] [65; 0] [97; 49; 0] [97; 0]; mkRec 0 [50; 0] [65; 0] [97; 49; 0] [97; 0]; mkRec 1 [51; 0] [66; 0] [97; 49; 0] [97; 0]; mkRec 1 [49; 0] [200; 0] [97; 49; 0] [97; 0]] in
  match parse_init (mkMib [] [] []) [branch [50] [88]; line [49] [78]] with
  | Ok m0 => match load u m0 rs with
             | Ok m => keys m false = [[49]; [51]] /\ keys m true = [[78]; [51]] /\ getitem m [78] = Ok (mkEntry [49] (Text [65]) [97; 49] [97]) /\ getitem m [88] = Raise KeyError
             | Raise _ => False end
  | Raise _ => False end.
Proof. exact C146_example_proof. Qed.
