(** Property theorems (generated from P_ConfigTextT.v by tools/gen_theorems.py). *)
From Coq Require Import List ZArith Bool Lia QArith Ascii String.
From Verif Require Import M_Str M_Config S_Config P_Str P_Config P_ConfigText P_ConfigTextT.
Import ListNotations.
Open Scope Z_scope.

(** Writing the configuration and loading it gives the same value for every name, with nothing pending and no
    version change, for every configuration that has all default parameters, names of the form section.item, and
    values that their own text denotes.  [show_float] and [parse_float] are repr() and float() of CPython. *)
Theorem C37_round_trip_partial : forall show_float parse_float version defaults c m, one_line version ->
  NoDup (map fst (params c)) -> (forall n, In n (map fst defaults) -> In n (map fst (params c))) ->
  (forall n p, In (n, p) (params c) -> good_name n /\ good_help p /\ good_value show_float parse_float (option_map p_value (dget n defaults)) (p_value p)) ->
  exists t c', to_text show_float version c = Some t /\ load parse_float version defaults (Some (m, t)) = inr c' /\
    (forall n, current c' n = current c n) /\ pend c' = [] /\ pch c' = false /\ vch c' = false /\ loaded c' = m.
Proof. exact C37_round_trip_partial_proof. Qed.
Print Assumptions C37_round_trip_partial.

(** Loading fails iff the file has a line of three or more characters that is neither a comment nor a section and has
    no '='; the error is ValueError, and it leaves the import of lsl.config. *)
Theorem C37_load_fails_iff : forall parse_float version defaults m t e,
  load parse_float version defaults (Some (m, t)) = inl e <-> e = ValueError /\ exists l, In l (split 10 (newlines t)) /\ bad_line l.
Proof. exact C37_load_fails_iff_proof. Qed.
Print Assumptions C37_load_fails_iff.

(** A missing file: the defaults, and a save is due. *)
Theorem C37_no_file : forall parse_float version defaults, load parse_float version defaults None = inr (mkC defaults [] true true 0).
Proof. exact C37_no_file_proof. Qed.
Print Assumptions C37_no_file.

Example C37_round_trip_example :
  let c := snd (set (txt "ldp.drx_buffer_size") (VInt (-7)) (snd (set (txt "observing.observer_name") (VStr (txt "J. Doe = x")) (mkC ex_defaults [] false false 0)))) in
  after_reload (txt "ldp.drx_buffer_size") c = Some (Some (VInt (-7))) /\ after_reload (txt "observing.observer_name") c = Some (Some (VStr (txt "J. Doe = x"))) /\ (forall n p, In (n, p) (params c) -> good_help p /\ good_value noshow nofloat (option_map p_value (dget n ex_defaults)) (p_value p)).
Proof. exact C37_round_trip_example_proof. Qed.

Example C37_good_names_example : good_name (txt "ldp.drx_buffer_size") /\ good_name (txt "observing.observer_name") /\ good_name (txt "ionosphere.igs_mirror").
Proof. exact C37_good_names_example_proof. Qed.

Example C37_load_fails_example : bad_line (txt "oops") /\ load nofloat (txt "1") ex_defaults (Some (5, txt "# x
oops
")) = inl ValueError.
Proof. exact C37_load_fails_example_proof. Qed.

(** None set for a parameter that has a default is lost: the next session has the default again. *)
Theorem C37_none_refuted : current (ex_with (txt "ionosphere.igs_mirror") VNone) (txt "ionosphere.igs_mirror") = Some VNone /\ after_reload (txt "ionosphere.igs_mirror") (ex_with (txt "ionosphere.igs_mirror") VNone) = Some (Some (VStr (txt "ftp://gssc.esa.int/gnss/products/ionex/"))).
Proof. exact C37_none_refuted_proof. Qed.
Print Assumptions C37_none_refuted.

(** Strings that look like something else come back as something else: '0123' as the integer 123, 'True' as a
    boolean, '' as None; spaces at the ends are lost. *)
Theorem C37_string_refuted :
  let n := txt "observing.observer_name" in
  let back s := after_reload n (ex_with n (VStr s)) in
  back (txt "0123") = Some (Some (VInt 123)) /\ back (txt "True") = Some (Some (VBool true)) /\ back [] = Some (Some VNone) /\ back (txt " a ") = Some (Some (VStr (txt "a"))).
Proof. exact C37_string_refuted_proof. Qed.
Print Assumptions C37_string_refuted.

(** A string with a newline makes a file that cannot be loaded, or sets another parameter. *)
Theorem C37_newline_refuted :
  let n := txt "observing.observer_name" in
  reload (ex_with n (VStr (txt "a
bcd"))) = Some (inl ValueError) /\
  after_reload (txt "observing.x") (ex_with n (VStr (txt "a
x = 5"))) = Some (Some (VInt 5)).
Proof. exact C37_newline_refuted_proof. Qed.
Print Assumptions C37_newline_refuted.

(** A setting before the first section is accepted by the load but makes every later save fail: the name has no dot. *)
Theorem C37_no_section_refuted : exists c, load nofloat (txt "3.0.0") ex_defaults (Some (5, txt "abc = 1")) = inr c /\ current c (txt "abc") = Some (VInt 1) /\ to_text noshow (txt "3.0.0") c = None.
Proof. exact C37_no_section_refuted_proof. Qed.
Print Assumptions C37_no_section_refuted.
