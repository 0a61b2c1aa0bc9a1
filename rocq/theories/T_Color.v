(** Property theorems (generated from P_ColorT.v by tools/gen_theorems.py). *)
From Coq Require Import String List ZArith Bool Lia.
From Verif Require Import M_Py M_Str P_Str M_Color S_Color P_Color P_ColorA P_ColorB P_ColorC P_ColorT.
Import ListNotations.
Open Scope Z_scope.

(** C125: for all text with tags, one in the other to a depth of ten, colorfy() ends and what it gives is shown by a terminal as the text, each character in the colors and styles of the tags around it, and uncolorfy() of it is the text. *)
Theorem C125_shown : forall (d : doc), fair d -> depth d <= 10 ->
  exists n, forall fuel, (n <= fuel)%nat -> exists out, colorfy fuel (write d) = Some (Ok out) /\ screen usual out = seen usual d /\ uncolorfy out = words d.
Proof. exact C125_shown_proof. Qed.
Print Assumptions C125_shown.

Example C125_shown_example : fair demo /\ depth demo = 2 /\ write demo = lit "a{{%Red b{{%bold c}}d{{%oops e}}}}f" /\
  seen usual demo = [(97, usual); (98, shade 1 usual); (99, mkStyle (Some 1) None true false false false); (100, shade 1 usual); (101, shade 1 usual); (102, usual)].
Proof. exact C125_shown_example_proof. Qed.

(** C125: the same text written out: the codes after the inner tag bring back the outer one. *)
Example C125_codes_example : colorfy 100 (lit "a{{%Red b{{%bold c}}d}}f") = Some (Ok (lit "a" ++ seq_of [51; 49] ++ lit "b" ++ seq_of [49] ++ lit "c" ++ seq_of [48] ++ seq_of [51; 49] ++ lit "d" ++ seq_of [48] ++ lit "f")).
Proof. exact C125_codes_example_proof. Qed.

(** C125: text without braces and codes is left as it is, by both. *)
Theorem C125_plain : forall (s : str), Forall plain_char s -> (exists n, forall fuel, (n <= fuel)%nat -> colorfy fuel s = Some (Ok s)) /\ uncolorfy s = s.
Proof. exact C125_plain_proof. Qed.
Print Assumptions C125_plain.

Example C125_plain_example : Forall plain_char (lit "100 %").
Proof. exact C125_plain_example_proof. Qed.

(** C125: two opening braces without a percent sign after them are not a tag: the text is left as it is. *)
Theorem C125_no_tag : forall (s t : str) (c : Z), Forall plain_char s -> Forall plain_char (c :: t) -> c <> 37 ->
  exists n, forall fuel, (n <= fuel)%nat -> colorfy fuel (s ++ [123; 123] ++ c :: t) = Some (Ok (s ++ [123; 123] ++ c :: t)).
Proof. exact C125_no_tag_proof. Qed.
Print Assumptions C125_no_tag.

Example C125_no_tag_example : colorfy 40 (lit "x {{0 y") = Some (Ok (lit "x {{0 y")).
Proof. exact C125_no_tag_example_proof. Qed.

(** C125, finding: text that ends with two opening braces raises IndexError. *)
Theorem C125_braces_refuted : forall (s : str), Forall plain_char s -> exists n, forall fuel, (n <= fuel)%nat -> colorfy fuel (s ++ [123; 123]) = Some (Raise IndexError).
Proof. exact C125_braces_refuted_proof. Qed.
Print Assumptions C125_braces_refuted.

Example C125_braces_example : colorfy 9 (lit "set {{") = Some (Raise IndexError).
Proof. exact C125_braces_example_proof. Qed.

(** C125, finding: a newline in a tag, a tag without text, another character than a space after its name or an unmatched '}}' before leave the tag as it is, with the labels of the first step in it. *)
Theorem C125_labels_refuted : colorfy 60 (lit "{{%red a" ++ [10] ++ lit "b}}") = Some (Ok (lit "{{0{{%red a" ++ [10] ++ lit "b}}0}}")) /\
  colorfy 60 (lit "{{%red}}") = Some (Ok (lit "{{0{{%red}}0}}")) /\ colorfy 60 (lit "}} {{%red a}}") = Some (Ok (lit "}} {{-1{{%red a}}")) /\
  colorfy 60 (lit "{{%red_a}}") = Some (Ok (lit "{{0{{%red_a}}0}}")).
Proof. exact C125_labels_refuted_proof. Qed.
Print Assumptions C125_labels_refuted.

(** C125, finding: eleven tags in each other are one too many: braces are left in the text. *)
Theorem C125_depth_refuted : depth (nest 11) = 11 /\ fair (nest 11) /\ exists out, colorfy 600 (write (nest 11)) = Some (Ok out) /\ In 123 out.
Proof. exact C125_depth_refuted_proof. Qed.
Print Assumptions C125_depth_refuted.
