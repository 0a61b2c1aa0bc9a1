From Coq Require Import List ZArith Bool Lia.
From Verif Require Import LibList M_Py M_Str P_Str M_Header S_Header P_Header P_HeaderP P_HeaderW P_HeaderX.
Import ListNotations.
Open Scope Z_scope.

(** C101: what was written with a BoxHeader or a CommentHeader, in the automatic width, is what parse_header() reads, whatever data follows in the file:
    for any json library that brings back the values, any one-character comment other than a blank or a colon, any indent, any nesting of sections,
    with rules and blank lines in between, if names are plain, no section is empty and sections stand before the values of their level. *)
Lemma C101_round_trip_partial_proof : forall J (loads : str -> option J) of_text as_text plus dumps sty c base width (l : list item) rest,
  good_comment c -> 1 <= base -> width <= 0 -> readable dumps loads c l -> Forall (fun x => starts_with [c] x = false) (split 10 rest) ->
  exists ls, write sty c base width (map (call_of dumps) l) = Some ls /\ parse_header loads of_text as_text plus c (text_of ls ++ rest) = Ok (meaning l).
Proof.
  intros J loads of_text as_text plus dumps sty c base width l rest Hc HB F R Q. exact (round_trip loads of_text as_text plus dumps c base Hc HB sty width l rest F R Q).
Qed.

(** *** A small json: digits and quoted texts *)
Definition toy : Type := Z + str.
Definition toy_dumps (j : toy) : str := match j with inl n => [48 + n] | inr s => [34] ++ s ++ [34] end.
Definition toy_loads (s : str) : option toy :=
  match s with
  | [x] => if (48 <=? x) && (x <=? 57) then Some (inl (x - 48)) else None
  | x :: r => if (x =? 34) && (last r 0 =? 34) then Some (inr (removelast r)) else None
  | [] => None
  end.
Definition toy_text (s : str) : toy := inr s.
Definition toy_as (j : toy) : option str := match j with inr s => Some s | inl _ => None end.
Definition toy_plus (j : toy) (s : str) : option toy := match j with inr t => Some (inr (t ++ s)) | inl _ => None end.
Definition toy_parse (text : str) : res (list (str * node toy)) := parse_header toy_loads toy_text toy_as toy_plus 35 text.
Definition toy_write (sty : style) (calls : list call) : str := match write sty 35 1 0 calls with Some ls => text_of ls | None => [] end.
(** beam: ( dp: (x: 3)  n: "z:" ), a rule, t: 5 *)
Definition sample : list (@item toy) :=
  [Group [98; 101; 97; 109] [Group [100; 112] [Entry [120] (inl 3)]; Gap; Entry [110] (inr [122; 58])]; Ruler; Entry [116] (inl 5)].

Lemma good_toy k : k <> [] -> is_space (hd 0 k) = false -> is_space (last k 0) = false -> forallb (fun c => negb ((9 <=? c) && (c <=? 13)) && negb (c =? 58) && negb (c =? 35) && negb (c =? 46)) k = true -> good_name 35 k.
Proof.
  intros N A Z F. rewrite forallb_forall in F. split; [split; [exact N|split; assumption]|]. repeat split.
  - intros x X. specialize (F x X). destruct (Z.leb_spec 9 x), (Z.leb_spec x 13); cbn in F; try discriminate; lia.
  - intro X. specialize (F _ X). discriminate.
  - intro X. specialize (F _ X). discriminate.
  - intro E. destruct k as [|x k]; [contradiction|]. cbn [firstn] in E. injection E as E _. subst x. specialize (F 46 (or_introl eq_refl)). discriminate.
Qed.
Lemma good_toy_value v : toy_loads (toy_dumps v) = Some v -> is_space (hd 0 (toy_dumps v)) = false -> is_space (last (toy_dumps v) 0) = false -> forallb (fun c => negb ((9 <=? c) && (c <=? 13)) && negb (c =? 35)) (toy_dumps v) = true -> good_value toy_dumps toy_loads 35 v.
Proof.
  intros L A Z F. rewrite forallb_forall in F. split; [exact L|]. split; [split; [destruct v; discriminate|split; assumption]|]. split.
  - intros x X. specialize (F x X). destruct (Z.leb_spec 9 x), (Z.leb_spec x 13); cbn in F; try discriminate; lia.
  - intro X. specialize (F _ X). discriminate.
Qed.
(** A header of three levels with both kinds of values: its conditions hold, and the text read back is the dictionary. *)
Lemma C101_round_trip_example_proof : good_comment 35 /\ readable toy_dumps toy_loads 35 sample /\
  (forall sty, toy_parse (toy_write sty (map (call_of toy_dumps) sample) ++ [49; 32; 50; 10]) =
     Ok [([98; 101; 97; 109], Dict [([100; 112], Dict [([120], Val (inl 3))]); ([110], Val (inr [122; 58]))]); ([116], Val (inl 5))]).
Proof.
  split; [split; [reflexivity|discriminate]|]. split.
  - assert (G : forall k, In k [[98; 101; 97; 109]; [100; 112]; [120]; [110]; [116]] -> good_name 35 k).
    { intros k K. repeat (destruct K as [<-|K]; [apply good_toy; [discriminate|reflexivity..]|]). destruct K. }
    assert (V : forall v, In v [inl 3; inr [122; 58]; inl 5] -> good_value toy_dumps toy_loads 35 v).
    { intros v K. repeat (destruct K as [<-|K]; [apply good_toy_value; reflexivity|]). destruct K. }
    assert (R1 : readable toy_dumps toy_loads 35 [Entry [120] (inl 3)]).
    { constructor; [repeat constructor; intros []|constructor; [intros n b []|constructor]| |intros n b [E|[]]; discriminate]. intros k v [E|[]]. injection E as <- <-. split; [apply G|apply V]; cbn; auto 10. }
    assert (R2 : readable toy_dumps toy_loads 35 [Group [100; 112] [Entry [120] (inl 3)]; Gap; Entry [110] (inr [122; 58])]).
    { constructor.
      - repeat constructor; cbn; intuition discriminate.
      - apply SF_group, SF_deco; [auto|]. apply SF_entry; [intros n b []|constructor].
      - intros k v [E|[E|[E|[]]]]; try discriminate. injection E as <- <-. split; [apply G|apply V]; cbn; auto 10.
      - intros n b [E|[E|[E|[]]]]; try discriminate. injection E as <- <-. split; [apply G; cbn; auto 10|]. split; [discriminate|exact R1]. }
    constructor.
    + repeat constructor; cbn; intuition discriminate.
    + apply SF_group, SF_deco; [auto|]. apply SF_entry; [intros n b []|constructor].
    + intros k v [E|[E|[E|[]]]]; try discriminate. injection E as <- <-. split; [apply G|apply V]; cbn; auto 10.
    + intros n b [E|[E|[E|[]]]]; try discriminate. injection E as <- <-. split; [apply G; cbn; auto 10|]. split; [discriminate|exact R2].
  - intros []; reflexivity.
Qed.
(** Refuted: a section after a value of its level is read as a text, and what it contains lands outside: a: 1, s: (b: 2). *)
Lemma C101_section_after_value_refuted_proof : let l := [Entry [97] (inl 1); Group [115] [Entry [98] (inl 2)]] in
  meaning l = [([97], Val (inl 1)); ([115], Dict [([98], Val (inl 2))])] /\
  forall sty, toy_parse (toy_write sty (map (call_of toy_dumps) l)) = Ok [([97], Val (inl 1)); ([115], Val (inr [])); ([98], Val (inl 2))].
Proof.
  split; [reflexivity|intros []; reflexivity].
Qed.
(** Refuted: an empty section takes the values that follow it on its level. *)
Lemma C101_empty_section_refuted_proof : let l := [Group [115] []; Entry [98] (inl 2)] in
  meaning l = [([115], Dict []); ([98], Val (inl 2))] /\
  forall sty, toy_parse (toy_write sty (map (call_of toy_dumps) l)) = Ok [([115], Dict [([98], Val (inl 2))])].
Proof.
  split; [reflexivity|intros []; reflexivity].
Qed.
(** Refuted: the comment character goes from the values: the text "#1" comes back as "1". *)
Lemma C101_comment_in_value_refuted_proof : let l := [Entry [97] (inr [35; 49])] in
  meaning l = [([97], Val (inr [35; 49]))] /\ forall sty, toy_parse (toy_write sty (map (call_of toy_dumps) l)) = Ok [([97], Val (inr [49]))].
Proof.
  split; [reflexivity|intros []; reflexivity].
Qed.
(** Refuted: a line of text after a value that is not a text cannot be read at all. *)
Lemma C101_line_after_value_refuted_proof : forall sty, toy_parse (toy_write sty [KeyValue [97] [49]; Line [104; 105]]) = Raise TypeError.
Proof.
  intros []; reflexivity.
Qed.
(** Refuted: a colon in a name splits it: "a:b" with the value 1 is read as "a" with the text "b: 1". *)
Lemma C101_colon_in_name_refuted_proof : let l := [Entry [97; 58; 98] (inl 1)] in
  forall sty, toy_parse (toy_write sty (map (call_of toy_dumps) l)) = Ok [([97], Val (inr [98; 58; 32; 49]))].
Proof.
  intros l []; reflexivity.
Qed.

(** C101: a value that was broken over several lines, each of the others with "... " at its start, is read as its parts joined (the blanks at the breaks, which textwrap drops, do not come back): the json value of the joined
    text if it has one, the text itself if not. *)
Lemma C101_wrapped_proof : forall J (loads : str -> option J) of_text as_text plus (c i : Z) (k v : str) (ts : list str),
  (forall t, as_text (of_text t) = Some t) -> (forall a b, plus (of_text a) b = Some (of_text (a ++ b))) -> good_comment c -> c <> 46 -> 1 <= i -> good_name c k -> no_blank_ends v -> ~ In c v -> ts <> [] ->
  (forall t, In t ts -> no_blank_ends t /\ ~ In c t /\ ~ In 58 t /\ forall a b, t <> a ++ [46; 46; 46; 32] ++ b) ->
  parse_lines loads of_text as_text plus c (([c] ++ repeat 32 (Z.to_nat i) ++ k ++ [58; 32] ++ v) :: map (fun t => [c] ++ repeat 32 (Z.to_nat i) ++ [46; 46; 46; 32] ++ t) ts) =
  Ok [(k, Val match loads (v ++ concat ts) with Some j => j | None => of_text (v ++ concat ts) end)].
Proof.
  intros J loads of_text as_text plus c i k v ts AO PO Hc Hd Hi K V C N T. unfold parse_lines. cbn [M_Header.steps].
  pose proof (first_line loads of_text as_text plus AO PO c i Hc Hd Hi k v (hd_error (map (more c i) ts)) K V C) as F. unfold spaces in F. change (map (fun t => [c] ++ repeat 32 (Z.to_nat i) ++ [46; 46; 46; 32] ++ t) ts) with (map (more c i) ts). rewrite F. cbn [bind].
  destruct ts as [|t ts]; [contradiction|]. unfold nxt at 1. cbn [map hd_error]. rewrite will_more. unfold loaded at 1.
  change (more c i t :: map (more c i) ts) with (map (more c i) (t :: ts)). rewrite (more_lines loads of_text as_text plus AO PO c i Hc Hd Hi k (t :: ts) v); [reflexivity| |discriminate|].
  - apply str_eqb_refl.
  - apply Forall_forall. intros x X. exact (T x X).
Qed.
(** # a: hello / # ... big / # ... world: the text "hellobigworld" *)
Lemma C101_wrapped_example_proof : good_name 35 [97] /\ (forall t, In t [[98; 105; 103]; [119; 111; 114; 108; 100]] -> no_blank_ends t /\ ~ In 35 t /\ ~ In 58 t /\ forall a b, t <> a ++ [46; 46; 46; 32] ++ b) /\
  toy_parse ([35; 32; 97; 58; 32; 104; 10] ++ [35; 32; 46; 46; 46; 32; 98; 105; 103; 10] ++ [35; 32; 46; 46; 46; 32; 119; 10]) = Ok [([97], Val (inr [104; 98; 105; 103; 119]))].
Proof.
  split; [apply good_toy; (discriminate || reflexivity)|]. split; [|reflexivity]. intros t [<-|[<-|[]]]; (split; [split; [discriminate|split; reflexivity]|]); (split; [cbn; intuition discriminate|]); (split; [cbn; intuition discriminate|]); intros a b E;
    (assert (X : In 46 (a ++ [46; 46; 46; 32] ++ b)) by (apply in_or_app; right; left; reflexivity)); rewrite <- E in X; cbn in X; intuition discriminate.
Qed.

(** C102: in the automatic width a BoxHeader is a rectangle: a full line and an empty one at either end, every row of it between two comment characters,
    all of the same length, with each text as given, indented by its level, and at least a blank before the right side. *)
Lemma C102_box_proof : forall c base width calls, 1 <= base -> width <= 0 -> calls <> [] ->
  (forall n t, In (Words n t) (flat_map (rows 1) calls) -> no_blank_ends t /\ one_line t) ->
  exists ls w, write Box c base width calls = Some ls /\ Forall2 (looks c base w) ([Bar; Empty] ++ flat_map (rows 1) calls ++ [Empty; Bar]) ls.
Proof.
  intros c base width calls HB F N T. exact (boxed c base width calls HB F N T).
Qed.
(** A box with a section, a rule and a line:
    the texts "s:", "a: 1" and "hello" in a box of ten characters *)
Lemma C102_box_example_proof : let calls := [Section_ [115] [KeyValue [97] [49]]; Rule; Line [104; 101; 108; 108; 111]] in
  (forall n t, In (Words n t) (flat_map (rows 1) calls) -> no_blank_ends t /\ one_line t) /\
  write Box 35 1 0 calls = Some [repeat 35 10; [35; 32; 32; 32; 32; 32; 32; 32; 32; 35]; [35; 32; 115; 58; 32; 32; 32; 32; 32; 35]; [35; 32; 32; 97; 58; 32; 49; 32; 32; 35]; repeat 35 10;
    [35; 32; 104; 101; 108; 108; 111; 32; 32; 35]; [35; 32; 32; 32; 32; 32; 32; 32; 32; 35]; repeat 35 10].
Proof.
  split; [|reflexivity]. cbn. intros n t H. decompose [or] H; try discriminate; try contradiction;
    match goal with E : Words _ _ = Words _ _ |- _ => injection E as <- <- end; (split; [split; [discriminate|split; reflexivity]|intros x X; cbn in X; decompose [or] X; try contradiction; subst; lia]).
Qed.
