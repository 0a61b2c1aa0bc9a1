(** Proofs about colored text: atoms, and what a terminal shows of them. *)
From Coq Require Import String List ZArith Bool Lia.
From Verif Require Import M_Py M_Str P_Str M_Color S_Color.
Import ListNotations.
Open Scope Z_scope.

Inductive atom := Ch (c : Z) | Sg (n : Z).
Definition sgrs : list Z := [0; 1; 4; 5; 7; 30; 31; 32; 33; 34; 35; 36; 37; 40; 41; 42; 43; 44; 45; 46; 47].
Definition esc (n : Z) : str := seq_of (if n <? 10 then [48 + n] else [48 + n / 10; 48 + n mod 10]).
Definition chr (a : atom) : str := match a with Ch c => [c] | Sg n => esc n end.
Definition strA (l : list atom) : str := flat_map chr l.
Definition good (a : atom) : Prop := match a with Ch c => plain_char c | Sg n => In n sgrs end.
Definition tagA (name : str) : list atom :=
  match find (fun n => str_eqb (esc n) (assoc (lower name) colors)) sgrs with Some n => [Sg n] | None => [] end.
Definition repA (c : list atom) (l : list atom) : list atom := flat_map (fun a => match a with Sg 0 => Sg 0 :: c | a => [a] end) l.
Definition encA (name : str) (l : list atom) : list atom := repA (tagA name) (tagA name ++ l) ++ [Sg 0].
Fixpoint ansiA (d : doc) : list atom := match d with Nil => [] | Txt s r => map Ch s ++ ansiA r | Tag n b r => encA n (ansiA b) ++ ansiA r end.

Lemma strA_app a b : strA (a ++ b) = strA a ++ strA b.
Proof. apply flat_map_app. Qed.
Lemma strA_ch s : strA (map Ch s) = s.
Proof. induction s as [|c s IH]; [reflexivity|]. cbn. f_equal. exact IH. Qed.
Ltac each H := cbn in H; repeat (destruct H as [H|H]; [|]); [..|contradiction].
Lemma esc_in m : In m sgrs -> exists t, esc m = 27 :: t /\ ~ In 27 t.
Proof. intro H. each H; subst m; eexists; (split; [reflexivity|cbn; lia]). Qed.
Lemma esc_prefix : forall m n X, In m sgrs -> In n sgrs -> starts_with (esc m) (esc n ++ X) = (m =? n).
Proof. intros m n X H K. each H; subst m; each K; subst n; reflexivity. Qed.
Lemma esc_inj m n : In m sgrs -> In n sgrs -> esc m = esc n -> m = n.
Proof. intros H K E. apply Z.eqb_eq. rewrite <- (esc_prefix m n [] H K), app_nil_r, E. clear. induction (esc n) as [|x l IH]; [reflexivity|]. cbn. rewrite Z.eqb_refl. exact IH. Qed.

Lemma rep_skip old new : forall a X, replace old new (length a) (a ++ X) = replace old new 0 X.
Proof. induction a as [|x a IH]; intro X; [reflexivity|]. cbn [length app replace]. apply IH. Qed.
Lemma rep_plain m new : In m sgrs -> forall a X, ~ In 27 a -> replace (esc m) new 0 (a ++ X) = a ++ replace (esc m) new 0 X.
Proof.
  intro H. destruct (esc_in m H) as [t [E _]]. rewrite E. induction a as [|x a IH]; intros X N; [reflexivity|]. cbn [app replace]. cbn [starts_with]. destruct (Z.eqb_spec 27 x) as [<-|]; [exfalso; apply N; left; reflexivity|]. cbn [andb]. f_equal. apply IH. intro K. apply N. right. exact K.
Qed.
Lemma rep_atoms m new : In m sgrs -> forall l, Forall good l -> replace (esc m) new 0 (strA l) = flat_map (fun a => match a with Sg n => if n =? m then new else esc n | Ch c => [c] end) l.
Proof.
  intros H l F. induction F as [|a l G F IH]; [reflexivity|]. cbn [strA flat_map]. fold (strA l). destruct a as [c|n]; cbn [chr].
  - rewrite rep_plain; [rewrite IH; reflexivity|exact H|]. cbn in G |- *. unfold plain_char in G. lia.
  - cbn in G. destruct (esc_in n G) as [t [E N]]. pose proof (esc_prefix m n (strA l) H G) as P. destruct (Z.eqb_spec n m) as [->|D].
    + rewrite Z.eqb_refl in P. rewrite E in P |- *. cbn [app replace] in P |- *. rewrite P. cbn [length Nat.sub]. rewrite Nat.sub_0_r, rep_skip, <- E, IH. reflexivity.
    + replace (m =? n) with false in P by (symmetry; apply Z.eqb_neq; congruence). rewrite E in P |- *. cbn [app replace] in P |- *. rewrite P. rewrite rep_plain by assumption. rewrite IH. reflexivity.
Qed.
Lemma code_cases name : (assoc (lower name) colors = [] /\ tagA name = [] /\ forall st, tint name st = st) \/
  exists n, In n sgrs /\ assoc (lower name) colors = esc n /\ tagA name = [Sg n] /\ forall st, tint name st = if n =? 0 then st else sgr n st.
Proof.
  unfold tagA, tint. change (map small name) with (lower name). generalize (lower name). intro x.
  assert (D : forall k, {x = k} + {x <> k}) by (intro k; apply (list_eq_dec Z.eq_dec)).
  Ltac hit D k n := destruct (D (lit k)) as [->|?]; [right; exists n; split; [cbn; tauto|]; split; [reflexivity|]; split; [reflexivity|]; intro st; reflexivity|].
  hit D "black"%string 30. hit D "red"%string 31. hit D "green"%string 32. hit D "yellow"%string 33. hit D "blue"%string 34. hit D "magenta"%string 35. hit D "cyan"%string 36. hit D "white"%string 37. hit D "bkg-black"%string 40. hit D "bkg-red"%string 41. hit D "bkg-green"%string 42. hit D "bkg-yellow"%string 43. hit D "bkg-blue"%string 44. hit D "bkg-magenta"%string 45. hit D "bkg-cyan"%string 46. hit D "bkg-white"%string 47. hit D "reset"%string 0. hit D "bold"%string 1. hit D "underline"%string 4. hit D "blink"%string 5. hit D "reverse"%string 7.
  left. assert (A : assoc x colors = []). { unfold colors. cbn [assoc]. repeat match goal with |- context [str_eqb x ?k] => destruct (str_eqb_spec x k) as [E|]; [contradiction|] end. reflexivity. }
  rewrite A. split; [reflexivity|split; [reflexivity|]]. intro st. cbn [nth_of hues map String.append]. unfold is. repeat match goal with |- context [list_eq_dec Z.eq_dec x ?k] => destruct (list_eq_dec Z.eq_dec x k) as [E|]; [exfalso; match goal with H : x <> _ |- _ => apply H; exact E end|] end. reflexivity.
Qed.
