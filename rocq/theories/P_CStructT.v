From Coq Require Import String.
From Coq Require Import List ZArith Bool Lia.
From Verif Require Import M_CStruct S_CStruct P_Str P_CStruct P_CStructL M_Ndp S_Ndp P_Ndp.
Import ListNotations.
Open Scope Z_scope.

Ltac side := try (cbn; discriminate); try (cbn; lia); try (cbn; tauto); try (cbn; constructor; fail);
  try (cbn; unfold blank, letter_digit; repeat (constructor; [lia|]); constructor; fail).
Ltac dimv := split; [discriminate|split; [repeat (constructor; [discriminate|]); constructor|]].

(** Whatever lines of C declarations the text consists of (blank lines and // comments in between), in either byte
    order and either way of treating characters: the text is accepted, the structure has exactly as many bytes as
    the C compiler gives it, reading it from a file takes exactly these bytes, and every attribute then has the
    values the C program stored, with the declared dimensions. *)
Lemma C103_read_proof : forall big ci overrides lines os l bs rest,
  lines <> [] -> Forall2 (line_says (constant overrides)) lines os ->
  declared os = map fst l -> NoDup (map (fun p => d_name (fst p)) l) ->
  image big ci l bs ->
  exists fs, parse_c_struct ci overrides (join 10 lines) = Ok fs /\
    sizeof fs = zlen bs /\ readinto (fresh fs) (bs ++ rest) = (bs, rest) /\
    forall d vs, In (d, vs) l -> attr big fs bs (d_name d) = vs /\ dims_of fs (d_name d) = d_dims d.
Proof.
  intros big ci ov lines os l bs rest NE H D ND IM. exists (map (field_of ci) (map fst l)).
  assert (P : parse_c_struct ci ov (join 10 lines) = Ok (map (field_of ci) (map fst l))).
  { unfold parse_c_struct. rewrite <- D. apply parse_text; auto.
    clear - H. induction H as [|line o lines os H1 H2 IH]; constructor; auto.
    eapply line_says_ext; [|exact H1]. intro k. symmetry. apply lookup_app. }
  rewrite map_map in *. split; [exact P|].
  pose proof (image_size big ci l bs IM) as SZ. split; [exact SZ|].
  assert (S0 : 0 <= sizeof (map (fun x => field_of ci (fst x)) l)) by (rewrite SZ; apply zlen_nonneg).
  split; [apply readinto_full; rewrite fresh_len; auto|].
  intros d vs IN. split; [now apply image_attr|].
  rewrite <- (map_map fst (field_of ci)). apply dims_of_field; [now rewrite map_map|].
  apply in_map_iff. exists (d, vs). auto.
Qed.

(** A field declared as an array of several dimensions, turned into nested lists the way the readers do it: element
    [i][j].. is the one the C program stored under these indices, the last index running fastest. *)
Lemma C103_index_proof : forall big ci l bs, NoDup (map (fun p => d_name (fst p)) l) -> image big ci l bs ->
  forall overrides lines os fs, lines <> [] -> Forall2 (line_says (constant overrides)) lines os -> declared os = map fst l ->
  parse_c_struct ci overrides (join 10 lines) = Ok fs ->
  forall d vs, In (d, vs) l -> d_dims d <> [] -> Forall (fun n => 1 <= n) (d_dims d) ->
  exists t, flat_to_multi (attr big fs bs (d_name d)) (dims_of fs (d_name d)) = Ok t /\ shaped (d_dims d) t /\
    forall idx, in_shape (d_dims d) idx -> get idx t = nth_error vs (Z.to_nat (row_major (d_dims d) idx)).
Proof.
  intros big ci l bs ND IM ov lines os fs NE H D P d vs IN NED POS.
  destruct (C103_read_proof big ci ov lines os l bs [] NE H D ND IM) as (fs' & P' & _ & _ & A).
  rewrite P in P'. inversion P'; subst fs'. destruct (A d vs IN) as [A1 A2]. rewrite A1, A2.
  apply flat_ok; auto. destruct IM as (b & pad & _ & B & _). pose proof (body_counts _ _ _ _ _ B) as C.
  rewrite Forall_forall in C. specialize (C _ IN). cbn in C. rewrite C. reflexivity.
Qed.

(** What happens at the end of a file: a structure of which only a part is there is filled with zeros, without an
    error, and nothing of the file is left. *)
Lemma C103_short_file_proof : forall fs bs, zlen bs <= sizeof fs ->
  readinto (fresh fs) bs = (bs ++ repeat 0 (Z.to_nat (sizeof fs - zlen bs)), []).
Proof.
  intros fs bs L. pose proof (zlen_nonneg bs) as N. rewrite readinto_short by (rewrite fresh_len; lia). f_equal. f_equal.
  unfold fresh, zdrop. replace (Z.to_nat (sizeof fs)) with (Z.to_nat (zlen bs) + Z.to_nat (sizeof fs - zlen bs))%nat by lia.
  rewrite repeat_app, skipn_app, repeat_length, Nat.sub_diag. rewrite skipn_all2 by (rewrite repeat_length; lia). reflexivity.
Qed.

(** The property is violated for a declaration whose comment contains a brace: the line is skipped as if it were the
    frame of the structure, so the field and its bytes are missing. *)
Lemma C103_brace_refuted_proof : exists fs,
  parse_c_struct false [] (cs "int a; /* {0, 1} */" ++ [10] ++ cs "int b;") = Ok fs /\ map fname fs = [cs "b"] /\ sizeof fs = 4.
Proof.
  eexists. split; [vm_compute; reflexivity|]. split; reflexivity.
Qed.

(** A concrete structure: a character, two integers with a gap before them, an array of two dimensions with an
    override, and the filling at the end. *)
Lemma C103_example_proof :
  let l := [(mkDecl (cs "tag") Char [3], [65; 66; 0]); (mkDecl (cs "n") Int [], [-2]); (mkDecl (cs "gain") Short [2; 2], [1; -1; 300; 7]);
            (mkDecl (cs "t") ULong [], [5]); (mkDecl (cs "flag") SChar [], [-1])] in
  let lines := [cs "    char tag[3];"; cs "// a comment"; cs "int n;   /* number */"; cs "signed short int gain[K][1+1];"; cs "";
                cs "unsigned long  t;"; cs "signed char flag;"] in
  (exists os, Forall2 (line_says (constant [(cs "K", 2)])) lines os /\ declared os = map fst l) /\
  exists bs, image false false l bs /\ zlen bs = 32 /\
    match parse_c_struct false [(cs "K", 2)] (join 10 lines) with
    | Ok fs => attr false fs bs (cs "n") = [-2] /\ attr false fs bs (cs "gain") = [1; -1; 300; 7] /\ attr false fs bs (cs "flag") = [-1] /\
               chars (attr false fs bs (cs "tag")) = [65; 66]
    | Raise _ => False
    end.
Proof.
  cbv zeta. split.
  - exists [Some (mkDecl (cs "tag") Char [3]); None; Some (mkDecl (cs "n") Int []); Some (mkDecl (cs "gain") Short [2; 2]); None;
            Some (mkDecl (cs "t") ULong []); Some (mkDecl (cs "flag") SChar [])]. split; [|reflexivity].
    apply Forall2_cons.
    { apply (Decl_line _ (mkDecl (cs "tag") Char [3]) (cs "    ") (cs "char") [32] [[[Num 3]]] []); side.
      apply Forall2_cons; [|constructor]. dimv. exists [[3]]. split; [|reflexivity]. repeat constructor; lia. }
    apply Forall2_cons.
    { apply (Comment_line _ [] (cs " a comment")); side. }
    apply Forall2_cons.
    { apply (Decl_line _ (mkDecl (cs "n") Int []) [] (cs "int") [32] [] (cs "   /* number */")); side. }
    apply Forall2_cons.
    { apply (Decl_line _ (mkDecl (cs "gain") Short [2; 2]) [] (cs "signed short int") [32] [[[Mac 75 []]]; [[Num 1]; [Num 1]]] []); side.
      apply Forall2_cons; [|apply Forall2_cons; [|constructor]]; dimv.
      - exists [[2]]. split; [|reflexivity]. repeat constructor; unfold capital; lia.
      - exists [[1]; [1]]. split; [|reflexivity]. repeat constructor; lia. }
    apply Forall2_cons.
    { apply Blank_line. constructor. }
    apply Forall2_cons.
    { apply (Decl_line _ (mkDecl (cs "t") ULong []) [] (cs "unsigned long") [32; 32] [] []); side. }
    apply Forall2_cons.
    { apply (Decl_line _ (mkDecl (cs "flag") SChar []) [] (cs "signed char") [32] [] []); side. }
    constructor.
  - exists (mk_image false [(mkDecl (cs "tag") Char [3], [65; 66; 0]); (mkDecl (cs "n") Int [], [-2]); (mkDecl (cs "gain") Short [2; 2], [1; -1; 300; 7]);
            (mkDecl (cs "t") ULong [], [5]); (mkDecl (cs "flag") SChar [], [-1])]). split; [|split; [reflexivity|vm_compute; auto]].
    apply mk_image_ok. unfold fits. repeat (apply Forall_cons; [split; [reflexivity|cbn; unfold in_range; cbn; repeat (constructor; [lia|]); constructor]|]). constructor.
Qed.
