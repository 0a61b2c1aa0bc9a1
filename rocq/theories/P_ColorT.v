(** Theorems about lsl/common/color.py. *)
From Coq Require Import String List ZArith Bool Lia.
From Verif Require Import M_Py M_Str P_Str M_Color S_Color P_Color P_ColorA P_ColorB P_ColorC.
Import ListNotations.
Open Scope Z_scope.

(** C125: for all text with tags, one in the other to a depth of ten, colorfy() ends and what it gives is shown by a terminal as the text, each character in the colors and styles of the tags around it, and uncolorfy() of it is the text. *)
Lemma C125_shown_proof : forall (d : doc), fair d -> depth d <= 10 ->
  exists n, forall fuel, (n <= fuel)%nat -> exists out, colorfy fuel (write d) = Some (Ok out) /\ screen usual out = seen usual d /\ uncolorfy out = words d.
Proof.
  intros d F D. exists (S (cost d + size d)). intros fuel H. exists (strA (ansiA d)). split; [apply colored; [exact F|exact D|lia]|]. split; [apply shown; exact F|apply uncolored; exact F].
Qed.
Lemma C125_shown_example_proof : fair demo /\ depth demo = 2 /\ write demo = lit "a{{%Red b{{%bold c}}d{{%oops e}}}}f" /\
  seen usual demo = [(97, usual); (98, shade 1 usual); (99, mkStyle (Some 1) None true false false false); (100, shade 1 usual); (101, shade 1 usual); (102, usual)].
Proof.
  split; [|repeat split; reflexivity]. unfold demo, plain_char, letter. cbn. repeat match goal with |- _ => lia | |- True => exact Logic.I | |- _ /\ _ => split | |- Forall _ _ => constructor | |- _ <> [] => discriminate | |- plain_char _ => unfold plain_char | |- letter _ => unfold letter end.
Qed.
(** C125: the same text written out: the codes after the inner tag bring back the outer one. *)
Lemma C125_codes_example_proof : colorfy 100 (lit "a{{%Red b{{%bold c}}d}}f") = Some (Ok (lit "a" ++ seq_of [51; 49] ++ lit "b" ++ seq_of [49] ++ lit "c" ++ seq_of [48] ++ seq_of [51; 49] ++ lit "d" ++ seq_of [48] ++ lit "f")).
Proof. reflexivity. Qed.
(** C125: text without braces and codes is left as it is, by both. *)
Lemma C125_plain_proof : forall (s : str), Forall plain_char s -> (exists n, forall fuel, (n <= fuel)%nat -> colorfy fuel s = Some (Ok s)) /\ uncolorfy s = s.
Proof.
  intros s F. assert (E : strA (ansiA (Txt s Nil)) = s) by (cbn [ansiA]; rewrite app_nil_r; apply strA_ch). assert (W : write (Txt s Nil) = s) by (cbn; apply app_nil_r). assert (G : fair (Txt s Nil)) by (cbn; tauto). split.
  - exists (S (cost (Txt s Nil) + size (Txt s Nil))). intros fuel H. rewrite <- W at 1. rewrite colored; [rewrite E; reflexivity|exact G|cbn; lia|lia].
  - pose proof (uncolored (Txt s Nil) G) as U. rewrite E in U. rewrite U. cbn. apply app_nil_r.
Qed.
Lemma C125_plain_example_proof : Forall plain_char (lit "100 %").
Proof. unfold lit, plain_char. repeat (constructor; [cbn; lia|]). constructor. Qed.
(** C125: two opening braces without a percent sign after them are not a tag: the text is left as it is. *)
Lemma C125_no_tag_proof : forall (s t : str) (c : Z), Forall plain_char s -> Forall plain_char (c :: t) -> c <> 37 ->
  exists n, forall fuel, (n <= fuel)%nat -> colorfy fuel (s ++ [123; 123] ++ c :: t) = Some (Ok (s ++ [123; 123] ++ c :: t)).
Proof.
  intros s t c Fs Ft C. exists (S (length s + (2 + (length (c :: t) + 1))))%nat. intros fuel H. apply plain_flat in Fs, Ft. remember (c :: t) as u eqn:U.
  assert (L : label fuel 0 (s ++ [123; 123] ++ u) = Some (Ok (s ++ [123; 123] ++ u))).
  { replace fuel with (length s + (S (S (length u + (fuel - length s - 2 - length u)))))%nat by lia. rewrite label_flat by exact Fs. set (k := (fuel - length s - 2 - length u)%nat). assert (K : (0 < k)%nat) by lia.
    replace (label (S (S (length u + k))) 0 ([123; 123] ++ u)) with (put [123] (put [123] (label (length u + k) 0 u))).
    - rewrite <- (app_nil_r u) at 2. rewrite label_flat by exact Ft. destruct k; [lia|]. cbn [label put]. rewrite app_nil_r. reflexivity.
    - rewrite U. pose proof (Forall_inv (eq_ind u (Forall _) Ft (c :: t) U)) as [A B]. cbn [app]. set (f := (length (c :: t) + k)%nat).
      change (label (S (S f)) 0 (123 :: 123 :: c :: t)) with (if c =? 37 then let s := [123; 123] ++ dec 0 ++ [123; 123] ++ c :: t in put (firstn 5 s) (label (S f) (0 + 1) (skipn 5 s)) else put [123] (label (S f) 0 (123 :: c :: t))).
      destruct (Z.eqb_spec c 37); [congruence|]. f_equal. cbn [label firstn str_eqb]. destruct (Z.eqb_spec c 123); [congruence|]. rewrite ?andb_false_r. reflexivity. }
  assert (NB : Forall (fun x => x <> 123) u) by (apply flat_no; exact Ft). assert (NS : Forall (fun x => x <> 123) s) by (apply flat_no; exact Fs).
  assert (Hd : forall p v, Forall (fun x => x <> 123) v -> strip_prefix (123 :: p) v = None) by (intros p v V; destruct v as [|x v]; [reflexivity|]; cbn [strip_prefix]; pose proof (Forall_inv V); destruct (Z.eqb_spec 123 x); [congruence|reflexivity]).
  assert (Sp : forall f v, Forall (fun x => x <> 123) v -> Forall (fun x => x <> 123) (snd (span f v))).
  { intros f v. induction v as [|x v IH]; intro V; [constructor|]. cbn [span]. destruct (f x); [|exact V]. specialize (IH (Forall_inv_tail V)). destruct (span f v) as [a b]. exact IH. }
  assert (D : depths (s ++ [123; 123] ++ u) = []).
  { rewrite depths_flat by exact NS. cbn [app depths]. assert (D0 : depths u = []) by (rewrite <- (app_nil_r u), depths_flat by exact NB; reflexivity). rewrite D0.
    assert (D1 : depth_at (123 :: u) = []) by (unfold depth_at; change (strip_prefix [123; 123] (123 :: u)) with (strip_prefix [123] u); rewrite (Hd [] u NB); reflexivity).
    assert (D2 : depth_at (123 :: 123 :: u) = []).
    { unfold depth_at. change (strip_prefix [123; 123] (123 :: 123 :: u)) with (Some u). cbv iota beta. pose proof (Sp is_digit u NB) as P. destruct (span is_digit u) as [a b]. cbn [snd] in P. pose proof (Hd [123; 37] b P) as Q0. destruct a; [reflexivity|]. rewrite Q0. reflexivity. }
    rewrite D1, D2. reflexivity. }
  assert (Sr : search 0 (s ++ [123; 123] ++ u) = None).
  { rewrite search_calm by (apply calm_flat; exact NS). assert (S0 : search 0 u = None) by (rewrite <- (app_nil_r u), search_calm by (apply calm_flat; exact NB); reflexivity).
    assert (M1 : match_at 0 (123 :: u) = None) by (unfold match_at; rewrite opener1 by lia; change (strip_prefix [123; 123; 48 + 0; 123; 123; 37] (123 :: u)) with (strip_prefix [123; 48 + 0; 123; 123; 37] u); rewrite (Hd _ u NB); reflexivity).
    assert (M2 : match_at 0 (123 :: 123 :: u) = None).
    { unfold match_at. rewrite opener1 by lia. change (strip_prefix [123; 123; 48 + 0; 123; 123; 37] (123 :: 123 :: u)) with (strip_prefix [48; 123; 123; 37] u). destruct u as [|x v]; [reflexivity|]. change (strip_prefix [48; 123; 123; 37] (x :: v)) with (if 48 =? x then strip_prefix [123; 123; 37] v else None). rewrite (Hd [123; 37] v (Forall_inv_tail NB)). destruct (48 =? x); reflexivity. }
    cbn [app search]. rewrite M2. rewrite M1, S0. reflexivity. }
  unfold colorfy. rewrite L, D. cbn [fold_right Z.to_nat passes]. destruct fuel as [|fuel]; [lia|]. cbn [convert Z.of_nat skipn]. rewrite Sr. reflexivity.
Qed.
Lemma C125_no_tag_example_proof : colorfy 40 (lit "x {{0 y") = Some (Ok (lit "x {{0 y")).
Proof. reflexivity. Qed.
(** C125, finding: text that ends with two opening braces raises IndexError. *)
Lemma C125_braces_refuted_proof : forall (s : str), Forall plain_char s -> exists n, forall fuel, (n <= fuel)%nat -> colorfy fuel (s ++ [123; 123]) = Some (Raise IndexError).
Proof.
  intros s F. exists (length s + 1)%nat. intros fuel H. unfold colorfy. replace fuel with (length s + (fuel - length s))%nat at 1 by lia. rewrite label_flat by (apply plain_flat; exact F). destruct (fuel - length s)%nat eqn:E; [lia|]. reflexivity.
Qed.
Lemma C125_braces_example_proof : colorfy 9 (lit "set {{") = Some (Raise IndexError).
Proof. reflexivity. Qed.
(** C125, finding: a newline in a tag, a tag without text, another character than a space after its name or an unmatched '}}' before leave the tag as it is, with the labels of the first step in it. *)
Lemma C125_labels_refuted_proof : colorfy 60 (lit "{{%red a" ++ [10] ++ lit "b}}") = Some (Ok (lit "{{0{{%red a" ++ [10] ++ lit "b}}0}}")) /\
  colorfy 60 (lit "{{%red}}") = Some (Ok (lit "{{0{{%red}}0}}")) /\ colorfy 60 (lit "}} {{%red a}}") = Some (Ok (lit "}} {{-1{{%red a}}")) /\
  colorfy 60 (lit "{{%red_a}}") = Some (Ok (lit "{{0{{%red_a}}0}}")).
Proof. repeat split; reflexivity. Qed.
(** C125, finding: eleven tags in each other are one too many: braces are left in the text. *)
Lemma C125_depth_refuted_proof : depth (nest 11) = 11 /\ fair (nest 11) /\ exists out, colorfy 600 (write (nest 11)) = Some (Ok out) /\ In 123 out.
Proof.
  split; [reflexivity|]. split; [unfold letter, plain_char; cbn; repeat match goal with |- _ => lia | |- True => exact Logic.I | |- _ /\ _ => split | |- Forall _ _ => constructor | |- _ <> [] => discriminate | |- plain_char _ => unfold plain_char | |- letter _ => unfold letter end|].
  eexists. split; [vm_compute; reflexivity|]. cbn. tauto.
Qed.
