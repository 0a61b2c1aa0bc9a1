(** Property theorems (generated from P_CStructT.v by tools/gen_theorems.py). *)
From Coq Require Import String.
From Coq Require Import List ZArith Bool Lia.
From Verif Require Import M_CStruct S_CStruct P_Str P_CStruct P_CStructL M_Ndp S_Ndp P_Ndp P_CStructT.
Import ListNotations.
Open Scope Z_scope.

Ltac side := try (cbn; discriminate); try (cbn; lia); try (cbn; tauto); try (cbn; constructor; fail);
  try (cbn; unfold blank, letter_digit; repeat (constructor; [lia|]); constructor; fail).
Ltac dimv := split; [discriminate|split; [repeat (constructor; [discriminate|]); constructor|]].

(** Whatever lines of C declarations the text consists of (blank lines and // comments in between), in either byte
    order and either way of treating characters: the text is accepted, the structure has exactly as many bytes as
    the C compiler gives it, reading it from a file takes exactly these bytes, and every attribute then has the
    values the C program stored, with the declared dimensions. *)
Theorem C103_read : forall big ci overrides lines os l bs rest,
  lines <> [] -> Forall2 (line_says (constant overrides)) lines os ->
  declared os = map fst l -> NoDup (map (fun p => d_name (fst p)) l) ->
  image big ci l bs ->
  exists fs, parse_c_struct ci overrides (join 10 lines) = Ok fs /\
    sizeof fs = zlen bs /\ readinto (fresh fs) (bs ++ rest) = (bs, rest) /\
    forall d vs, In (d, vs) l -> attr big fs bs (d_name d) = vs /\ dims_of fs (d_name d) = d_dims d.
Proof. exact C103_read_proof. Qed.
Print Assumptions C103_read.

(** A field declared as an array of several dimensions, turned into nested lists the way the readers do it: element
    [i][j].. is the one the C program stored under these indices, the last index running fastest. *)
Theorem C103_index : forall big ci l bs, NoDup (map (fun p => d_name (fst p)) l) -> image big ci l bs ->
  forall overrides lines os fs, lines <> [] -> Forall2 (line_says (constant overrides)) lines os -> declared os = map fst l ->
  parse_c_struct ci overrides (join 10 lines) = Ok fs ->
  forall d vs, In (d, vs) l -> d_dims d <> [] -> Forall (fun n => 1 <= n) (d_dims d) ->
  exists t, flat_to_multi (attr big fs bs (d_name d)) (dims_of fs (d_name d)) = Ok t /\ shaped (d_dims d) t /\
    forall idx, in_shape (d_dims d) idx -> get idx t = nth_error vs (Z.to_nat (row_major (d_dims d) idx)).
Proof. exact C103_index_proof. Qed.
Print Assumptions C103_index.

(** What happens at the end of a file: a structure of which only a part is there is filled with zeros, without an
    error, and nothing of the file is left. *)
Theorem C103_short_file : forall fs bs, zlen bs <= sizeof fs ->
  readinto (fresh fs) bs = (bs ++ repeat 0 (Z.to_nat (sizeof fs - zlen bs)), []).
Proof. exact C103_short_file_proof. Qed.
Print Assumptions C103_short_file.

(** The property is violated for a declaration whose comment contains a brace: the line is skipped as if it were the
    frame of the structure, so the field and its bytes are missing. *)
Theorem C103_brace_refuted : exists fs,
  parse_c_struct false [] (cs "int a; /* {0, 1} */" ++ [10] ++ cs "int b;") = Ok fs /\ map fname fs = [cs "b"] /\ sizeof fs = 4.
Proof. exact C103_brace_refuted_proof. Qed.
Print Assumptions C103_brace_refuted.

(** A concrete structure: a character, two integers with a gap before them, an array of two dimensions with an
    override, and the filling at the end. *)
Example C103_example :
  let l := [(mkDecl (cs "tag") Char [3], [65; 66; 0]); (mkDecl (cs "n") Int [], [-2]); (mkDecl (cs "gain") Short [2; 2], [1; -1; 300; 7]);
            (mkDecl (cs "t") ULong [], [5]); (mkDecl (cs "flag") SChar [], [-1])] in
  let lines := [cs "    char tag[3];"; cs "// a comment"; cs "int n;   /* number */"; cs "signed short int gain[K][1+1];"; cs "";
                cs "unsigned long  t;"; cs "signed char flag;"] in
  (exists os, Forall2 (line_says (constant [(cs "K", 2)])) lines os /\ declared os = map fst l) /\
  exists bs, image false false l bs /\ zlen bs = 32 /\
    match parse_c_struct false [(cs "K", 2)] (join 10 lines) with
    | Ok fs => attr false fs bs (cs "n") = [-2] /\ attr false fs bs (cs "gain") = [1; -1; 300; 7] /\ attr false fs bs (cs "flag") = [-1] /\
               chars (attr false fs bs (cs "tag")) = [65; 66]
    | Raise _ => False
    end.
Proof. exact C103_example_proof. Qed.
