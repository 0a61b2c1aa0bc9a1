(** Property theorems (generated from P_HeaderT.v by tools/gen_theorems.py). *)
From Coq Require Import List ZArith Bool Lia.
From Verif Require Import LibList M_Py M_Str P_Str M_Header S_Header P_Header P_HeaderP P_HeaderW P_HeaderX P_HeaderT.
Import ListNotations.
Open Scope Z_scope.

(** C101: what was written with a BoxHeader or a CommentHeader, in the automatic width, is what parse_header() reads, whatever data follows in the file:
    for any json library that brings back the values, any one-character comment other than a blank or a colon, any indent, any nesting of sections,
    with rules and blank lines in between, if names are plain, no section is empty and sections stand before the values of their level. *)
Theorem C101_round_trip_partial : forall J (loads : str -> option J) of_text as_text plus dumps sty c base width (l : list item) rest,
  good_comment c -> 1 <= base -> width <= 0 -> readable dumps loads c l -> Forall (fun x => starts_with [c] x = false) (split 10 rest) ->
  exists ls, write sty c base width (map (call_of dumps) l) = Some ls /\ parse_header loads of_text as_text plus c (text_of ls ++ rest) = Ok (meaning l).
Proof. exact C101_round_trip_partial_proof. Qed.
Print Assumptions C101_round_trip_partial.

(** A header of three levels with both kinds of values: its conditions hold, and the text read back is the dictionary. *)
Example C101_round_trip_example : good_comment 35 /\ readable toy_dumps toy_loads 35 sample /\
  (forall sty, toy_parse (toy_write sty (map (call_of toy_dumps) sample) ++ [49; 32; 50; 10]) =
     Ok [([98; 101; 97; 109], Dict [([100; 112], Dict [([120], Val (inl 3))]); ([110], Val (inr [122; 58]))]); ([116], Val (inl 5))]).
Proof. exact C101_round_trip_example_proof. Qed.

(** Refuted: a section after a value of its level is read as a text, and what it contains lands outside: a: 1, s: (b: 2). *)
Theorem C101_section_after_value_refuted : let l := [Entry [97] (inl 1); Group [115] [Entry [98] (inl 2)]] in
  meaning l = [([97], Val (inl 1)); ([115], Dict [([98], Val (inl 2))])] /\
  forall sty, toy_parse (toy_write sty (map (call_of toy_dumps) l)) = Ok [([97], Val (inl 1)); ([115], Val (inr [])); ([98], Val (inl 2))].
Proof. exact C101_section_after_value_refuted_proof. Qed.
Print Assumptions C101_section_after_value_refuted.

(** Refuted: an empty section takes the values that follow it on its level. *)
Theorem C101_empty_section_refuted : let l := [Group [115] []; Entry [98] (inl 2)] in
  meaning l = [([115], Dict []); ([98], Val (inl 2))] /\
  forall sty, toy_parse (toy_write sty (map (call_of toy_dumps) l)) = Ok [([115], Dict [([98], Val (inl 2))])].
Proof. exact C101_empty_section_refuted_proof. Qed.
Print Assumptions C101_empty_section_refuted.

(** Refuted: the comment character goes from the values: the text "#1" comes back as "1". *)
Theorem C101_comment_in_value_refuted : let l := [Entry [97] (inr [35; 49])] in
  meaning l = [([97], Val (inr [35; 49]))] /\ forall sty, toy_parse (toy_write sty (map (call_of toy_dumps) l)) = Ok [([97], Val (inr [49]))].
Proof. exact C101_comment_in_value_refuted_proof. Qed.
Print Assumptions C101_comment_in_value_refuted.

(** Refuted: a line of text after a value that is not a text cannot be read at all. *)
Theorem C101_line_after_value_refuted : forall sty, toy_parse (toy_write sty [KeyValue [97] [49]; Line [104; 105]]) = Raise TypeError.
Proof. exact C101_line_after_value_refuted_proof. Qed.
Print Assumptions C101_line_after_value_refuted.

(** Refuted: a colon in a name splits it: "a:b" with the value 1 is read as "a" with the text "b: 1". *)
Theorem C101_colon_in_name_refuted : let l := [Entry [97; 58; 98] (inl 1)] in
  forall sty, toy_parse (toy_write sty (map (call_of toy_dumps) l)) = Ok [([97], Val (inr [98; 58; 32; 49]))].
Proof. exact C101_colon_in_name_refuted_proof. Qed.
Print Assumptions C101_colon_in_name_refuted.

(** C101: a value that was broken over several lines, each of the others with "... " at its start, is read as its parts joined (the blanks at the breaks, which textwrap drops, do not come back): the json value of the joined
    text if it has one, the text itself if not. *)
Theorem C101_wrapped : forall J (loads : str -> option J) of_text as_text plus (c i : Z) (k v : str) (ts : list str),
  (forall t, as_text (of_text t) = Some t) -> (forall a b, plus (of_text a) b = Some (of_text (a ++ b))) -> good_comment c -> c <> 46 -> 1 <= i -> good_name c k -> no_blank_ends v -> ~ In c v -> ts <> [] ->
  (forall t, In t ts -> no_blank_ends t /\ ~ In c t /\ ~ In 58 t /\ forall a b, t <> a ++ [46; 46; 46; 32] ++ b) ->
  parse_lines loads of_text as_text plus c (([c] ++ repeat 32 (Z.to_nat i) ++ k ++ [58; 32] ++ v) :: map (fun t => [c] ++ repeat 32 (Z.to_nat i) ++ [46; 46; 46; 32] ++ t) ts) =
  Ok [(k, Val match loads (v ++ concat ts) with Some j => j | None => of_text (v ++ concat ts) end)].
Proof. exact C101_wrapped_proof. Qed.
Print Assumptions C101_wrapped.

(** # a: hello / # ... big / # ... world: the text "hellobigworld" *)
Example C101_wrapped_example : good_name 35 [97] /\ (forall t, In t [[98; 105; 103]; [119; 111; 114; 108; 100]] -> no_blank_ends t /\ ~ In 35 t /\ ~ In 58 t /\ forall a b, t <> a ++ [46; 46; 46; 32] ++ b) /\
  toy_parse ([35; 32; 97; 58; 32; 104; 10] ++ [35; 32; 46; 46; 46; 32; 98; 105; 103; 10] ++ [35; 32; 46; 46; 46; 32; 119; 10]) = Ok [([97], Val (inr [104; 98; 105; 103; 119]))].
Proof. exact C101_wrapped_example_proof. Qed.

(** C102: in the automatic width a BoxHeader is a rectangle: a full line and an empty one at either end, every row of it between two comment characters,
    all of the same length, with each text as given, indented by its level, and at least a blank before the right side. *)
Theorem C102_box : forall c base width calls, 1 <= base -> width <= 0 -> calls <> [] ->
  (forall n t, In (Words n t) (flat_map (rows 1) calls) -> no_blank_ends t /\ one_line t) ->
  exists ls w, write Box c base width calls = Some ls /\ Forall2 (looks c base w) ([Bar; Empty] ++ flat_map (rows 1) calls ++ [Empty; Bar]) ls.
Proof. exact C102_box_proof. Qed.
Print Assumptions C102_box.

(** A box with a section, a rule and a line:
    the texts "s:", "a: 1" and "hello" in a box of ten characters *)
Example C102_box_example : let calls := [Section_ [115] [KeyValue [97] [49]]; Rule; Line [104; 101; 108; 108; 111]] in
  (forall n t, In (Words n t) (flat_map (rows 1) calls) -> no_blank_ends t /\ one_line t) /\
  write Box 35 1 0 calls = Some [repeat 35 10; [35; 32; 32; 32; 32; 32; 32; 32; 32; 35]; [35; 32; 115; 58; 32; 32; 32; 32; 32; 35]; [35; 32; 32; 97; 58; 32; 49; 32; 32; 35]; repeat 35 10;
    [35; 32; 104; 101; 108; 108; 111; 32; 32; 35]; [35; 32; 32; 32; 32; 32; 32; 32; 32; 35]; repeat 35 10].
Proof. exact C102_box_example_proof. Qed.
