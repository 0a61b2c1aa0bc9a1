(** Proofs about the catalog factory. *)
From Coq Require Import List ZArith Lia Bool.
From Verif Require Import M_Cat S_Cat P_Str.
Import ListNotations.
Open Scope Z_scope.

(** The instances kept are the successful constructions, and no name is constructed again after one. *)
Definition sound (outcome : nat -> option exn) (f : factory) : Prop :=
  forall n i, find_instance n (instances f) = Some i ->
    outcome i = None /\ nth_error (attempts f) i = Some n /\ forall j, (i < j)%nat -> nth_error (attempts f) j <> Some n.
Lemma nth_snoc : forall A (l : list A) a j, nth_error (l ++ [a]) j = if Nat.eqb j (length l) then Some a else nth_error l j.
Proof.
  intros A l a j. destruct (Nat.eqb_spec j (length l)) as [->|N].
  - rewrite nth_error_app2 by lia. rewrite Nat.sub_diag. reflexivity.
  - destruct (Nat.lt_ge_cases j (length l)) as [L|L]; [apply nth_error_app1; exact L|].
    rewrite nth_error_app2 by lia. destruct (j - length l)%nat as [|k] eqn:E; [lia|]. cbn. replace (nth_error l j) with (@None A); [destruct k; reflexivity|]. symmetry. apply nth_error_None. lia.
Qed.
Lemma get_sound : forall outcome n f r f', sound outcome f -> get_catalog outcome n f = (r, f') ->
  sound outcome f' /\
  (exists more, attempts f' = attempts f ++ more) /\
  (forall m i, find_instance m (instances f) = Some i -> find_instance m (instances f') = Some i) /\
  (forall i, r = Ok i -> In n FACTORY_NAMES /\ find_instance n (instances f') = Some i) /\
  (forall e, r = Raise e -> ~ In n FACTORY_NAMES /\ e = ValueError \/ In n FACTORY_NAMES /\ exists j, (length (attempts f) <= j)%nat /\ nth_error (attempts f') j = Some n /\ outcome j = Some e).
Proof.
  intros outcome n f r f' Sd H. unfold get_catalog in H.
  assert (KN : existsb (str_eqb n) class_names = true <-> In n FACTORY_NAMES).
  { change FACTORY_NAMES with class_names. rewrite existsb_exists. split.
    - intros (x & I & E). destruct (str_eqb_spec n x); [subst; exact I|discriminate].
    - intro I. exists n. split; [exact I|apply str_eqb_refl]. }
  destruct (existsb (str_eqb n) class_names) eqn:K; cbn [negb] in H.
  - assert (In n FACTORY_NAMES) as I by (apply KN; reflexivity). destruct (find_instance n (instances f)) as [i|] eqn:G.
    + injection H as <- <-. split; [exact Sd|]. split; [exists []; rewrite app_nil_r; reflexivity|]. split; [auto|]. split; [|discriminate]. intros j E. injection E as <-. auto.
    + cbv zeta in H. destruct (outcome (length (attempts f))) as [e|] eqn:O; injection H as <- <-; cbn [instances attempts] in *.
      * split; [|split; [eexists; reflexivity|split; [auto|split; [discriminate|]]]].
        -- intros m i E. cbn [instances attempts] in *. destruct (Sd m i E) as (A & B & C). assert (Li : (i < length (attempts f))%nat) by (apply nth_error_Some; congruence).
           split; [exact A|]. split; [rewrite nth_error_app1 by exact Li; exact B|]. intros j Lj. rewrite nth_snoc. destruct (Nat.eqb_spec j (length (attempts f))); [congruence|auto].
        -- intros e' E. injection E as <-. right. split; [exact I|]. exists (length (attempts f)). split; [lia|]. split; [rewrite nth_snoc, Nat.eqb_refl; reflexivity|exact O].
      * split; [|split; [eexists; reflexivity|split; [|split; [|discriminate]]]].
        -- intros m i E. cbn [instances attempts find_instance] in *. destruct (str_eqb_spec n m) as [<-|N].
           ++ injection E as <-. split; [exact O|]. split; [rewrite nth_snoc, Nat.eqb_refl; reflexivity|]. intros j Lj. rewrite nth_snoc. destruct (Nat.eqb_spec j (length (attempts f))); [lia|].
              replace (nth_error (attempts f) j) with (@None str); [discriminate|]. symmetry. apply nth_error_None. lia.
           ++ destruct (Sd m i E) as (A & B & C). assert (Li : (i < length (attempts f))%nat) by (apply nth_error_Some; congruence).
              split; [exact A|]. split; [rewrite nth_error_app1 by exact Li; exact B|]. intros j Lj. rewrite nth_snoc. destruct (Nat.eqb_spec j (length (attempts f))); [congruence|auto].
        -- intros m i E. cbn [find_instance]. destruct (str_eqb_spec n m) as [<-|N]; [congruence|exact E].
        -- intros i E. injection E as <-. split; [exact I|]. cbn [find_instance]. rewrite str_eqb_refl. reflexivity.
  - assert (~ In n FACTORY_NAMES) as I by (intro X; apply KN in X; discriminate). injection H as <- <-. split; [exact Sd|]. split; [exists []; rewrite app_nil_r; reflexivity|]. split; [auto|]. split; [discriminate|].
    intros e E. injection E as <-. left. auto.
Qed.
Lemma session_sound : forall outcome ns f os f', sound outcome f -> session outcome ns f = (os, f') ->
  sound outcome f' /\
  (exists more, attempts f' = attempts f ++ more) /\
  (forall m i, find_instance m (instances f) = Some i -> find_instance m (instances f') = Some i) /\
  map fst os = ns /\
  (forall n i, In (n, Ok i) os -> In n FACTORY_NAMES /\ find_instance n (instances f') = Some i) /\
  (forall n e, In (n, Raise e) os -> ~ In n FACTORY_NAMES /\ e = ValueError \/ In n FACTORY_NAMES /\ exists j, nth_error (attempts f') j = Some n /\ outcome j = Some e).
Proof.
  intros outcome ns. induction ns as [|n ns IH]; intros f os f' Sd H; cbn [session] in H.
  - injection H as <- <-. split; [exact Sd|]. split; [exists []; rewrite app_nil_r; reflexivity|]. split; [auto|]. split; [reflexivity|]. split; intros ? ? [].
  - destruct (get_catalog outcome n f) as [o f1] eqn:G. destruct (session outcome ns f1) as [os1 f2] eqn:E. injection H as <- <-.
    destruct (get_sound outcome n f o f1 Sd G) as (S1 & (m1 & A1) & K1 & O1 & R1). destruct (IH f1 os1 f2 S1 E) as (S2 & (m2 & A2) & K2 & M2 & O2 & R2).
    split; [exact S2|]. split; [exists (m1 ++ m2); rewrite A2, A1, app_assoc; reflexivity|]. split; [auto|]. split; [cbn [map fst]; rewrite M2; reflexivity|]. split.
    + intros m i [X|X]; [injection X as <- ->; destruct (O1 i eq_refl); auto|auto].
    + intros m e [X|X]; [|auto]. injection X as <- ->. destruct (R1 e eq_refl) as [Y|(Y & j & _ & N & O)]; [auto|]. right. split; [exact Y|]. exists j. split; [|exact O].
      rewrite A2, nth_error_app1; [exact N|]. apply nth_error_Some. congruence.
Qed.
