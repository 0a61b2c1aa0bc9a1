(** Proofs about colored text: the terminal, and the codes removed. *)
From Coq Require Import String List ZArith Bool Lia.
From Verif Require Import M_Py M_Str P_Str M_Color S_Color P_Color.
Import ListNotations.
Open Scope Z_scope.

Lemma good_app a b : Forall good (a ++ b) <-> Forall good a /\ Forall good b.
Proof. apply Forall_app. Qed.
Lemma tagA_good n : Forall good (tagA n).
Proof. destruct (code_cases n) as [(_ & -> & _)|(k & I & _ & -> & _)]; [constructor|(constructor; [exact I|constructor])]. Qed.
Lemma tagA_str n : strA (tagA n) = assoc (lower n) colors.
Proof. destruct (code_cases n) as [(-> & -> & _)|(k & I & -> & -> & _)]; [reflexivity|]. cbn [strA flat_map chr]. apply app_nil_r. Qed.
Lemma repA_good c l : Forall good c -> Forall good l -> Forall good (repA c l).
Proof.
  intros C F. induction F as [|a l G F IH]; [constructor|]. cbn [repA flat_map]. apply good_app. split; [|exact IH]. destruct a as [x|n]; [(constructor; [exact G|constructor])|]. destruct n; [constructor; assumption|(constructor; [exact G|constructor])..].
Qed.
Lemma encA_good n l : Forall good l -> Forall good (encA n l).
Proof. intro F. apply good_app. split; [apply repA_good; [|apply good_app; split; [|exact F]]; apply tagA_good|constructor; [cbn; auto|constructor]]. Qed.
Lemma ansiA_good d : fair d -> Forall good (ansiA d).
Proof.
  induction d as [|s r IH|n b IHb r IHr]; cbn; intro H; [constructor| |].
  - apply good_app. split; [|apply IH; tauto]. destruct H as [H _]. induction H; constructor; assumption.
  - apply good_app. split; [apply encA_good, IHb|apply IHr]; tauto.
Qed.
Lemma encoded_str n l : Forall good l -> encoded n (strA l) = strA (encA n l).
Proof.
  intro F. unfold encoded, encA. rewrite strA_app. rewrite <- tagA_str, <- strA_app. change reset with (esc 0). rewrite rep_atoms; [|cbn; auto|apply good_app; split; [apply tagA_good|exact F]].
  f_equal. unfold repA, strA. rewrite flat_map_concat_map, flat_map_concat_map. rewrite flat_map_concat_map with (l := tagA n ++ l). rewrite <- !flat_map_concat_map. generalize (tagA n ++ l). intro m.
  induction m as [|a m IH]; [reflexivity|]. cbn [flat_map]. rewrite flat_map_app, <- IH. f_equal. destruct a as [c|k]; [reflexivity|]. destruct k; cbn [Z.eqb]; [reflexivity|cbn [flat_map chr]; rewrite app_nil_r; reflexivity..].
Qed.

(** *** The terminal *)
Definition app1 (B : style) (st : style) (a : atom) : style := match a with Ch _ => st | Sg n => if n =? 0 then B else sgr n st end.
Fixpoint out (B st : style) (l : list atom) : list (Z * style) := match l with [] => [] | Ch c :: l => (c, st) :: out B st l | a :: l => out B (app1 B st a) l end.
Definition fin (B st : style) (l : list atom) : style := fold_left (app1 B) l st.
Lemma out_app B : forall a b st, out B st (a ++ b) = out B st a ++ out B (fin B st a) b.
Proof. induction a as [|[c|n] a IH]; intros b st; [reflexivity|cbn; f_equal; apply IH|cbn [app out]; rewrite IH; reflexivity]. Qed.
Lemma fin_app B a b st : fin B st (a ++ b) = fin B (fin B st a) b.
Proof. apply fold_left_app. Qed.
Lemma screen_out : forall l st, Forall good l -> screen st (strA l) = out usual st l.
Proof.
  induction l as [|a l IH]; intros st F; [reflexivity|]. pose proof (Forall_inv F) as G. apply Forall_inv_tail in F. cbn [strA flat_map]. fold (strA l). destruct a as [c|n].
  - cbn in G. destruct G as (_ & _ & _ & _ & G). cbn [chr app screen out]. destruct (Z.eqb_spec c 27); [contradiction|]. f_equal. apply IH. exact F.
  - cbn in G. cbn [out app1]. rewrite <- IH by exact F. each G; subst n; reflexivity.
Qed.
(** replacing the resets is the same as another base *)
Lemma rep_out n B : forall l st, out B st (repA (tagA n) l) = out (tint n B) st l /\ fin B st (repA (tagA n) l) = fin (tint n B) st l.
Proof.
  induction l as [|a l IH]; intro st; [split; reflexivity|]. cbn [repA flat_map]. fold (repA (tagA n) l). destruct a as [c|k]; [destruct (IH st) as [E1 E2]; split; [cbn [app out]; rewrite E1; reflexivity|exact E2]|].
  destruct (Z.eqb_spec k 0) as [->|K].
  - rewrite out_app, fin_app. assert (T : fin B st (Sg 0 :: tagA n) = tint n B /\ out B st (Sg 0 :: tagA n) = []).
    { destruct (code_cases n) as [(_ & -> & T)|(j & I & _ & -> & T)]; cbn; rewrite T; [split; reflexivity|]. destruct (Z.eqb_spec j 0) as [->|J]; split; reflexivity. }
    destruct T as [T1 T2]. rewrite T1, T2. cbn [app]. destruct (IH (tint n B)) as [-> ->]. split; reflexivity.
  - replace (match k with 0 => Sg 0 :: tagA n | _ => [Sg k] end) with [Sg k] by (destruct k; [contradiction|reflexivity..]). cbn [app out fin fold_left app1]. destruct (Z.eqb_spec k 0); [contradiction|]. apply IH.
Qed.
Lemma tag_start n B : fin (tint n B) B (tagA n) = tint n B /\ out (tint n B) B (tagA n) = [].
Proof.
  destruct (code_cases n) as [(_ & -> & T)|(j & I & _ & -> & T)]; cbn; rewrite T; [split; reflexivity|]. destruct (Z.eqb_spec j 0) as [->|J]; split; try reflexivity.
Qed.
Lemma out_ch B st s : out B st (map Ch s) = map (fun c => (c, st)) s /\ fin B st (map Ch s) = st.
Proof. induction s as [|c s [IH1 IH2]]; [split; reflexivity|]. cbn. rewrite IH1. split; [reflexivity|exact IH2]. Qed.
Lemma ansi_seen : forall d B, out B B (ansiA d) = seen B d /\ fin B B (ansiA d) = B.
Proof.
  induction d as [|s r IH|n b IHb r IHr]; intro B; [split; reflexivity| |].
  - cbn [ansiA seen]. rewrite out_app, fin_app. destruct (out_ch B B s) as [-> ->]. destruct (IH B) as [-> ->]. split; reflexivity.
  - cbn [ansiA seen]. unfold encA. rewrite <- app_assoc, !out_app, !fin_app. destruct (rep_out n B (tagA n ++ ansiA b) B) as [-> ->]. rewrite out_app. destruct (tag_start n B) as [-> ->]. destruct (IHb (tint n B)) as [-> _]. cbn [app out app1 Z.eqb]. cbn [fin fold_left app1 Z.eqb]. destruct (IHr B) as [-> ->]. split; reflexivity.
Qed.
Lemma shown d : fair d -> screen usual (strA (ansiA d)) = seen usual d.
Proof. intro F. rewrite screen_out by (apply ansiA_good; exact F). apply ansi_seen. Qed.

(** *** uncolorfy *)
Definition not_sg (n : Z) (a : atom) : bool := match a with Ch _ => true | Sg k => negb (k =? n) end.
Lemma rep_drop m l : In m sgrs -> Forall good l -> replace (esc m) [] 0 (strA l) = strA (filter (not_sg m) l).
Proof.
  intros I F. rewrite rep_atoms by assumption. clear F. induction l as [|[c|n] l IH]; [reflexivity|cbn; f_equal; exact IH|]. cbn [flat_map filter not_sg]. destruct (n =? m); cbn [negb]; [exact IH|]. cbn [strA flat_map chr]. fold (strA (filter (not_sg m) l)). rewrite <- IH. reflexivity.
Qed.
Lemma filter_good P l : Forall good l -> Forall good (filter P l).
Proof. intro F. apply Forall_forall. intros x X. apply filter_In in X. rewrite Forall_forall in F. apply F. tauto. Qed.
Lemma drop_all_sg : forall ms l, Forall good l -> (forall m, In m ms -> In m sgrs) -> fold_left (fun t m => replace (esc m) [] 0 t) ms (strA l) = strA (filter (fun a => forallb (fun m => not_sg m a) ms) l).
Proof.
  induction ms as [|m ms IH]; intros l F H; cbn [fold_left forallb].
  - f_equal. clear. induction l as [|a l IH]; [reflexivity|]. cbn. f_equal. exact IH.
  - rewrite rep_drop by (try assumption; apply H; left; reflexivity). rewrite IH by (try (apply filter_good; exact F); intros x X; apply H; right; exact X). f_equal. clear. induction l as [|a l IH]; [reflexivity|]. cbn [filter]. destruct (not_sg m a); cbn [andb filter]; [|exact IH]. destruct (forallb _ ms); [f_equal|]; exact IH.
Qed.
Definition order : list Z := [30; 31; 32; 33; 34; 35; 36; 37; 40; 41; 42; 43; 44; 45; 46; 47; 0; 1; 4; 5; 7].
Lemma uncolor_atoms l : Forall good l -> uncolorfy (strA l) = flat_map (fun a => match a with Ch c => [c] | Sg _ => [] end) l.
Proof.
  intro F. unfold uncolorfy. replace (fold_left (fun t c => replace (snd c) [] 0 t) colors (strA l)) with (fold_left (fun t m => replace (esc m) [] 0 t) order (strA l)) by reflexivity.
  rewrite drop_all_sg; [|exact F|intros m M; each M; subst m; cbn; tauto]. induction F as [|a l G F IH]; [reflexivity|]. cbn [filter]. destruct a as [c|n].
  - replace (forallb (fun m => not_sg m (Ch c)) order) with true by reflexivity. cbn [flat_map app]. rewrite <- IH. reflexivity.
  - replace (forallb (fun m => not_sg m (Sg n)) order) with false; [exact IH|]. cbn in G. each G; subst n; reflexivity.
Qed.
Lemma words_enc c l : flat_map (fun a => match a with Ch c => [c] | Sg _ => [] end) (repA (tagA c) l) = flat_map (fun a => match a with Ch c => [c] | Sg _ => [] end) l.
Proof.
  assert (T : flat_map (fun a => match a with Ch c => [c] | Sg _ => [] end) (tagA c) = []) by (destruct (code_cases c) as [(_ & -> & _)|(j & _ & _ & -> & _)]; reflexivity).
  induction l as [|a l IH]; [reflexivity|]. cbn [repA flat_map]. fold (repA (tagA c) l). rewrite flat_map_app, IH. f_equal. destruct a as [x|n]; [reflexivity|]. destruct n; [cbn; exact T|reflexivity..].
Qed.
Lemma uncolored d : fair d -> uncolorfy (strA (ansiA d)) = words d.
Proof.
  intro F. rewrite uncolor_atoms by (apply ansiA_good; exact F). clear F. induction d as [|s r IH|n b IHb r IHr]; [reflexivity| |]; cbn [ansiA words]; rewrite flat_map_app.
  - rewrite IH. f_equal. induction s as [|c s IHs]; [reflexivity|]. cbn. f_equal. exact IHs.
  - rewrite IHr. f_equal. unfold encA. rewrite flat_map_app, words_enc, flat_map_app, IHb. cbn [flat_map]. rewrite app_nil_r.
    destruct (code_cases n) as [(_ & -> & _)|(j & _ & _ & -> & _)]; reflexivity.
Qed.
