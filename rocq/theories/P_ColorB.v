(** Proofs about colored text: labels and passes. *)
From Coq Require Import String List ZArith Bool Lia.
From Verif Require Import M_Py M_Str P_Str M_Color S_Color P_Color P_ColorA.
Import ListNotations.
Open Scope Z_scope.

Definition open_ (l : Z) (n : str) : str := [123; 123; 48 + l; 123; 123; 37] ++ n ++ [32].
Definition close_ (l : Z) : str := [125; 125; 48 + l; 125; 125].
(** the text when the tags from level K on are converted *)
Fixpoint stage (K l : Z) (d : doc) : str :=
  match d with
  | Nil => []
  | Txt s r => s ++ stage K l r
  | Tag n b r => (if l <? K then open_ l n ++ stage K (l + 1) b ++ close_ l else strA (encA n (ansiA b))) ++ stage K l r
  end.
Lemma stage_done K : forall d l, K <= l -> stage K l d = strA (ansiA d).
Proof.
  induction d as [|s r IH|n b IHb r IHr]; intros l H; [reflexivity| |]; cbn [stage ansiA]; rewrite strA_app.
  - rewrite strA_ch, IH by exact H. reflexivity.
  - destruct (Z.ltb_spec l K); [lia|]. rewrite IHr by exact H. reflexivity.
Qed.
Lemma stage_deep K K' : forall d l, l + depth d <= K -> l + depth d <= K' -> stage K l d = stage K' l d.
Proof.
  induction d as [|s r IH|n b IHb r IHr]; intros l H H'; [reflexivity| |]; cbn [stage depth] in *.
  - rewrite (IH l) by assumption. reflexivity.
  - assert (0 <= depth b) by (clear; induction b; cbn; lia). destruct (Z.ltb_spec l K); [|lia]. destruct (Z.ltb_spec l K'); [|lia]. rewrite (IHr l), (IHb (l + 1)) by lia. reflexivity.
Qed.
Lemma depth_nn d : 0 <= depth d.
Proof. induction d; cbn; lia. Qed.
Lemma dec1 l : 0 <= l <= 9 -> dec l = [48 + l].
Proof. intro H. assert (E : l = 0 \/ l = 1 \/ l = 2 \/ l = 3 \/ l = 4 \/ l = 5 \/ l = 6 \/ l = 7 \/ l = 8 \/ l = 9) by lia. repeat (destruct E as [->|E]; [reflexivity|]). subst. reflexivity. Qed.
Lemma opener1 l : 0 <= l <= 9 -> opener l = [123; 123; 48 + l; 123; 123; 37].
Proof. intro H. unfold opener. rewrite dec1 by exact H. reflexivity. Qed.
Lemma closer1 l : 0 <= l <= 9 -> closer l = close_ l.
Proof. intro H. unfold closer. rewrite dec1 by exact H. reflexivity. Qed.

(** *** Labels *)
Lemma put_put {A} (a b : list A) r : put a (put b r) = put (a ++ b) r.
Proof. destruct r as [[x|e]|]; cbn; rewrite ?app_assoc; reflexivity. Qed.
Lemma label_char f l c s : c <> 123 -> c <> 125 -> label (S f) l (c :: s) = put [c] (label f l s).
Proof. intros A B. cbn [label firstn]. destruct s as [|x s]; cbn [str_eqb firstn]; destruct (Z.eqb_spec c 123); try contradiction; destruct (Z.eqb_spec c 125); try contradiction; reflexivity. Qed.
Definition flat (a : str) : Prop := Forall (fun c => c <> 123 /\ c <> 125) a.
Lemma label_flat l X : forall a f, flat a -> label (length a + f) l (a ++ X) = put a (label f l X).
Proof.
  induction a as [|c a IH]; intros f H; [cbn; destruct (label f l X) as [[]|]; reflexivity|]. pose proof (Forall_inv H) as [A B]. apply Forall_inv_tail in H. cbn [length plus app]. rewrite label_char by assumption. rewrite IH by exact H. exact (put_put [c] a _).
Qed.
Lemma label_open f l X : 0 <= l <= 9 -> label (S f) l ([123; 123; 37] ++ X) = put [123; 123; 48 + l; 123; 123] (label f (l + 1) (37 :: X)).
Proof. intro H. cbn [label app firstn skipn str_eqb Z.eqb Pos.eqb andb]. rewrite dec1 by exact H. reflexivity. Qed.
Lemma label_close f l X : 0 <= l <= 9 -> label (S f) (l + 1) ([125; 125] ++ X) = put (close_ l) (label f l X).
Proof. intro H. cbn [label app firstn skipn str_eqb Z.eqb Pos.eqb andb]. replace (l + 1 - 1) with l by lia. destruct (Z.leb_spec 0 l); [|lia]. rewrite dec1 by exact H. reflexivity. Qed.
Fixpoint cost (d : doc) : nat := match d with Nil => 0 | Txt s r => length s + cost r | Tag n b r => S (length (37 :: n ++ [32]) + (cost b + S (cost r))) end.
Lemma plain_flat s : Forall plain_char s -> flat s.
Proof. intro F. eapply Forall_impl; [|exact F]. unfold plain_char. intros; tauto. Qed.
Lemma name_flat n : Forall letter n -> flat (37 :: n ++ [32]).
Proof. intro F. constructor; [lia|]. apply Forall_app. split; [|repeat constructor; lia]. eapply Forall_impl; [|exact F]. unfold letter. intros; lia. Qed.
Lemma label_doc K : forall d l f X, fair d -> 0 <= l -> l + depth d <= K -> K <= 10 -> label (cost d + f) l (write d ++ X) = put (stage K l d) (label f l X).
Proof.
  induction d as [|s r IH|n b IHb r IHr]; intros l f X F L D HK; cbn [fair depth] in F, D.
  - cbn. destruct (label f l X) as [[]|]; reflexivity.
  - cbn [cost write stage]. rewrite <- app_assoc, <- Nat.add_assoc, label_flat by (apply plain_flat; tauto). rewrite IH by (try tauto; lia). apply put_put.
  - destruct F as (_ & Fn & Fb & Fr). pose proof (depth_nn b). cbn [write stage]. destruct (Z.ltb_spec l K); [|lia]. cbn [cost].
    change (chars "{{%") with [123; 123; 37]. change (chars " ") with [32]. change (chars "}}") with [125; 125].
    replace (([123; 123; 37] ++ n ++ [32] ++ write b ++ [125; 125] ++ write r) ++ X) with ([123; 123; 37] ++ (n ++ [32]) ++ write b ++ [125; 125] ++ write r ++ X) by (rewrite <- !app_assoc; reflexivity).
    cbn [plus]. rewrite label_open by lia. rewrite <- Nat.add_assoc. change (37 :: (n ++ [32]) ++ write b ++ [125; 125] ++ write r ++ X) with ((37 :: n ++ [32]) ++ write b ++ [125; 125] ++ write r ++ X). rewrite label_flat by (apply name_flat; exact Fn).
    rewrite <- Nat.add_assoc. rewrite IHb by (try assumption; lia). cbn [plus]. rewrite label_close by lia. rewrite IHr by (try assumption; lia). rewrite !put_put. f_equal. unfold open_. rewrite <- !app_assoc. cbn [app]. rewrite <- !app_assoc. reflexivity.
Qed.

(** *** Depths *)
Fixpoint levels (l : Z) (d : doc) : list Z := match d with Nil => [] | Txt _ r => levels l r | Tag _ b r => l :: levels (l + 1) b ++ levels l r end.
Lemma depths_char c s : c <> 123 -> depths (c :: s) = depths s.
Proof. intro H. cbn [depths]. unfold depth_at. cbn [strip_prefix]. destruct (Z.eqb_spec 123 c); [congruence|]. reflexivity. Qed.
Lemma depths_flat X : forall a, Forall (fun c => c <> 123) a -> depths (a ++ X) = depths X.
Proof. induction a as [|c a IH]; intro H; [reflexivity|]. cbn [app]. rewrite depths_char by (apply (Forall_inv H)). apply IH. apply (Forall_inv_tail H). Qed.
Lemma depths_open l s : 0 <= l <= 9 -> depths ([123; 123; 48 + l; 123; 123; 37] ++ s) = l :: depths s.
Proof. intro H. assert (E : l = 0 \/ l = 1 \/ l = 2 \/ l = 3 \/ l = 4 \/ l = 5 \/ l = 6 \/ l = 7 \/ l = 8 \/ l = 9) by lia. repeat (destruct E as [->|E]; [reflexivity|]). subst. reflexivity. Qed.
Lemma flat_no a : flat a -> Forall (fun c => c <> 123) a.
Proof. intro F. eapply Forall_impl; [|exact F]. cbn. tauto. Qed.
Lemma depths_doc K X : forall d l, fair d -> 0 <= l -> l + depth d <= K -> K <= 10 -> depths (stage K l d ++ X) = levels l d ++ depths X.
Proof.
  intro d. revert X. induction d as [|s r IH|n b IHb r IHr]; intros X l F L D HK; cbn [fair depth] in F, D; cbn [stage levels]; [reflexivity| |].
  - rewrite <- app_assoc, depths_flat by (apply flat_no, plain_flat; tauto). apply IH; try tauto; lia.
  - destruct F as (_ & Fn & Fb & Fr). pose proof (depth_nn b). destruct (Z.ltb_spec l K); [|lia]. unfold open_. rewrite <- !app_assoc. rewrite depths_open by lia. cbn [app]. f_equal.
    rewrite depths_flat by (eapply Forall_impl; [|exact Fn]; unfold letter; intros; lia). rewrite depths_char by lia. rewrite IHb by (try assumption; lia). rewrite <- (app_assoc (levels (l + 1) b)). f_equal. rewrite (depths_flat _ (close_ l)) by (unfold close_; repeat (constructor; [lia|]); constructor). apply IHr; try assumption; lia.
Qed.
Lemma levels_max d l : Forall (fun x => l <= x < l + depth d) (levels l d) /\ (levels l d = [] /\ depth d = 0 \/ In (l + depth d - 1) (levels l d)).
Proof.
  revert l. induction d as [|s r IH|n b IHb r IHr]; intro l; cbn [levels depth]; [split; [constructor|left; auto]|apply IH|].
  destruct (IHb (l + 1)) as [B1 B2]. destruct (IHr l) as [R1 R2]. pose proof (depth_nn b). pose proof (depth_nn r). split.
  - constructor; [lia|]. apply Forall_app. split; [eapply Forall_impl; [|exact B1]|eapply Forall_impl; [|exact R1]]; cbv beta; intros; lia.
  - right. destruct (Z.max_spec (1 + depth b) (depth r)) as [[M ->]|[M ->]].
    + destruct R2 as [[_ R2]|R2]; [lia|]. right. apply in_or_app. right. exact R2.
    + destruct B2 as [[_ B2]|B2]; [left; lia|]. right. apply in_or_app. left. replace (l + (1 + depth b) - 1) with (l + 1 + depth b - 1) by lia. exact B2.
Qed.
Lemma fold_max l a : (forall x, In x l -> 0 <= x <= a) -> (In a l \/ a = 0) -> fold_right Z.max 0 l = a.
Proof.
  revert a. induction l as [|x l IH]; intros a H I; cbn.
  - destruct I as [[]|I]. lia.
  - destruct I as [[ -> | I ] | -> ].
    + assert (G : 0 <= fold_right Z.max 0 l <= a). { assert (H' : forall y, In y l -> 0 <= y <= a) by (intros; apply H; right; assumption). pose proof (H a (or_introl eq_refl)). clear -H' H0. induction l as [|y l IH]; cbn; [lia|]. pose proof (H' y (or_introl eq_refl)). assert (forall z, In z l -> 0 <= z <= a) by (intros; apply H'; right; assumption). specialize (IH H1). lia. } lia.
    + rewrite (IH a); [|intros; apply H; right; assumption|left; exact I]. pose proof (H x (or_introl eq_refl)). lia.
    + rewrite (IH 0); [|intros; apply H; right; assumption|right; reflexivity]. pose proof (H x (or_introl eq_refl)). lia.
Qed.
Lemma deepest d : fold_right Z.max 0 (levels 0 d) = Z.max (depth d - 1) 0.
Proof.
  destruct (levels_max d 0) as [A B]. rewrite Forall_forall in A. pose proof (depth_nn d). apply fold_max.
  - intros x X. apply A in X. lia.
  - destruct B as [[_ E]|B]; [right; lia|]. destruct (Z.eq_dec (depth d) 0); [right; lia|]. left. replace (Z.max (depth d - 1) 0) with (0 + depth d - 1) by lia. exact B.
Qed.
