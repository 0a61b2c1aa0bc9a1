(** Proofs about the telemetry client. *)
From Coq Require Import List ZArith Bool Lia.
From Verif Require Import LibList M_Py M_Str M_Tele S_Tele.
Import ListNotations.
Open Scope Z_scope.

Lemma str_eqb_iff a b : str_eqb a b = true <-> a = b.
Proof.
  revert b; induction a as [|x a IH]; intros [|y b]; cbn; try (split; congruence).
  rewrite andb_true_iff, Z.eqb_eq, IH. split; [intros [-> ->]; reflexivity|intro E; injection E; auto].
Qed.
Lemma same_log_iff a b : same_log a b = true <-> a = b.
Proof. unfold same_log. rewrite andb_true_iff, !Z.eqb_eq. destruct a, b; cbn. split; [intros [-> ->]; reflexivity|intro E; injection E; auto]. Qed.
Lemma starts_iff p : forall n, starts_with p n = true <-> exists r, n = p ++ r.
Proof.
  induction p as [|x p IH]; intros n; cbn.
  - split; [intros _; exists n; reflexivity|reflexivity].
  - destruct n as [|y n]; [split; [discriminate|intros [r E]; discriminate]|]. rewrite andb_true_iff, Z.eqb_eq, IH. split.
    + intros [-> [r ->]]. exists r. reflexivity.
    + intros [r E]. injection E as -> ->. split; [reflexivity|exists r; reflexivity].
Qed.
Lemma tag_iff n : starts_with tag n = true <-> ours n. Proof. apply starts_iff. Qed.

(** The table: distinct names, as many as counted. *)
Definition sound (s : client) : Prop := NoDup (map fst (t_cache s)) /\ t_count s = Z.of_nat (length (t_cache s)).
Lemma bump_names m t tb : forall tb', bump m t tb = Some tb' -> map fst tb' = map fst tb /\ In m (map fst tb).
Proof.
  induction tb as [|[k i] tb IH]; intros tb' E; cbn in E; [discriminate|]. destruct (str_eqb k m) eqn:K.
  - injection E as <-. apply str_eqb_iff in K. cbn. auto.
  - destruct (bump m t tb) as [tb2|]; [|discriminate]. injection E as <-. destruct (IH _ eq_refl) as [A B]. cbn. rewrite A. auto.
Qed.
Lemma bump_none m t tb : bump m t tb = None -> ~ In m (map fst tb).
Proof.
  induction tb as [|[k i] tb IH]; cbn; [auto|]. destruct (str_eqb k m) eqn:K; [discriminate|]. destruct (bump m t tb); [discriminate|]. intros _ [E|E]; [apply str_eqb_iff in E; congruence|apply IH; auto].
Qed.
Lemma names_with_in n t : NoDup (map fst t) -> In n (map fst t) -> names_with n t = Z.of_nat (length t).
Proof. intros N I. unfold names_with. cbn [nodup]. destruct (in_dec (list_eq_dec Z.eq_dec) n (map fst t)) as [_|C]; [|contradiction]. rewrite nodup_fixed_point by exact N. rewrite map_length. reflexivity. Qed.
Lemma names_with_new n t : NoDup (map fst t) -> ~ In n (map fst t) -> names_with n t = Z.of_nat (length t) + 1.
Proof. intros N I. unfold names_with. cbn [nodup]. destruct (in_dec (list_eq_dec Z.eq_dec) n (map fst t)) as [C|_]; [contradiction|]. rewrite nodup_fixed_point by exact N. cbn [length]. rewrite map_length. lia. Qed.
(** the table after one more call, before a log is written *)
Definition noted (n : str) (timing : Z) (s : client) : client :=
  match bump n timing (t_cache s) with
  | Some t => with_cache t (t_count s) s
  | None => with_cache (t_cache s ++ [(n, mkI 1 (0 + (if 0 <? timing then 1 else 0)) timing)]) (t_count s + 1) s
  end.
Lemma noted_sound n t s : sound s -> sound (noted n t s) /\ t_count (noted n t s) = names_with n (t_cache s) /\ t_files (noted n t s) = t_files s /\ t_active (noted n t s) = t_active s /\
  t_pid (noted n t s) = t_pid s /\ t_max (noted n t s) = t_max s /\ 0 < t_count (noted n t s) /\ t_enabled (noted n t s) = t_enabled s.
Proof.
  intros [N C]. unfold noted, sound. destruct (bump n t (t_cache s)) as [tb|] eqn:B; cbn.
  - destruct (bump_names _ _ _ _ B) as [E I]. rewrite E. assert (L : length tb = length (t_cache s)) by (rewrite <- (map_length fst tb), E, map_length; reflexivity). rewrite L, names_with_in by assumption.
    assert (0 < Z.of_nat (length (t_cache s))) by (destruct (t_cache s); [destruct I|cbn; lia]). repeat split; auto; lia.
  - apply bump_none in B. rewrite map_app. cbn. rewrite app_length. cbn. rewrite names_with_new by assumption. split; [split; [|lia]|repeat split; lia].
    apply NoDup_Add with (a := n) (l := map fst (t_cache s)); [|split; [exact N|exact B]]. rewrite <- (app_nil_r (map fst (t_cache s))) at 1. apply Add_app.
Qed.
Lemma write_sound now d s : sound s -> sound (snd (write now d s)).
Proof.
  intro S. assert (K : sound (clear s)) by (split; cbn; [constructor|reflexivity]). unfold write. destruct (_ && _); [destruct d|]; cbn [snd]; [split; cbn; [constructor|reflexivity]|exact S|exact S|exact K].
Qed.
Lemma step_sound o s : sound s -> sound (step o s).
Proof.
  intro S. destruct o; cbn [step]; try exact S.
  - unfold track. destruct (_ || _); [exact S|]. cbn [snd]. fold (noted n timing s). destruct (noted_sound n timing s S) as [S1 _]. destruct (_ <=? _); [apply write_sound, S1|exact S1].
  - apply write_sound, S.
  - split; cbn; [constructor|reflexivity].
Qed.
Lemma write_keeps now d s : t_active (snd (write now d s)) = t_active s /\ t_enabled (snd (write now d s)) = t_enabled s /\ t_pid (snd (write now d s)) = t_pid s /\ t_max (snd (write now d s)) = t_max s /\ t_readonly (snd (write now d s)) = t_readonly s /\ t_sends (snd (write now d s)) = t_sends s.
Proof. unfold write. destruct (_ && _); [destruct d|]; cbn; auto 10. Qed.

Lemma put_fresh n c l : ~ In n (map fst l) -> put n c l = l ++ [(n, c)].
Proof.
  intro NI. unfold put. f_equal. induction l as [|[m d] l IH]; [reflexivity|]. cbn [filter fst map] in *. destruct (same_log m n) eqn:K.
  - apply same_log_iff in K. subst. exfalso. apply NI. left. reflexivity.
  - cbn [negb]. rewrite IH; [reflexivity|]. intro H. apply NI. right. exact H.
Qed.

(** One more call of a name adds to what the table says about it. *)
Section Measure.
Context (f : info -> Z) (g : Z -> Z).
Definition measures : Prop := (forall t, f (mkI 1 (0 + (if 0 <? t then 1 else 0)) t) = g t) /\ (forall i t, f (mkI (i_total i + 1) (i_timed i + (if 0 <? t then 1 else 0)) (i_time i + t)) = f i + g t).
Context (M : measures).
Lemma said_app n a b : said f n (a ++ b) = said f n a + said f n b.
Proof. induction a as [|[m i] a IH]; cbn; [reflexivity|]. rewrite IH. lia. Qed.
Lemma logged_app n a b : logged f n (a ++ b) = logged f n a + logged f n b.
Proof. induction a as [|[m [|t]] a IH]; cbn; [reflexivity|exact IH|]. rewrite IH. lia. Qed.
Lemma bump_said m t tb : forall tb', bump m t tb = Some tb' -> forall n, said f n tb' = said f n tb + (if list_eq_dec Z.eq_dec m n then g t else 0).
Proof.
  induction tb as [|[k i] tb IH]; intros tb' E n; cbn in E; [discriminate|]. destruct (str_eqb k m) eqn:K.
  - injection E as <-. apply str_eqb_iff in K. subst k. cbn [said]. rewrite (proj2 M). destruct (list_eq_dec Z.eq_dec m n); lia.
  - destruct (bump m t tb) as [tb2|] eqn:B; [|discriminate]. injection E as <-. cbn [said]. rewrite (IH _ eq_refl). lia.
Qed.
Definition holds (n : str) (s : client) : Z := logged f n (t_files s) + said f n (t_cache s).
Lemma noted_holds m t s n : holds n (noted m t s) = holds n s + (if list_eq_dec Z.eq_dec m n then g t else 0).
Proof.
  unfold holds, noted. destruct (bump m t (t_cache s)) as [tb|] eqn:B; cbn [with_cache t_files t_cache].
  - rewrite (bump_said _ _ _ _ B). lia.
  - rewrite said_app. cbn [said]. rewrite (proj1 M). lia.
Qed.
Lemma write_holds now d s n : sound s -> t_active s = true -> (t_cache s <> [] -> ~ In (now, t_pid s) (map fst (t_files s))) -> holds n (snd (write now d s)) = holds n s.
Proof.
  intros [_ C] A F. unfold write. rewrite A. cbn [andb]. destruct (Z.ltb_spec 0 (t_count s)) as [P|P].
  - assert (NE : t_cache s <> []) by (intro E; rewrite E in C; cbn in C; lia). specialize (F NE). unfold holds. destruct d; cbn; [| reflexivity |]; rewrite put_fresh, logged_app by exact F; cbn; lia.
  - unfold holds. cbn. destruct (t_cache s); [reflexivity|cbn in C; lia].
Qed.
Lemma step_holds o s n : sound s -> t_active s = true -> (writes o s -> ~ In (second o, t_pid s) (map fst (t_files s))) -> o <> Clear -> ours n ->
  holds n (step o s) = holds n s + counted g n [o].
Proof.
  intros S A F NC O. destruct o as [m t now d|now d| | | |]; cbn [step counted]; try (unfold holds; cbn; lia); try congruence.
  - unfold track. rewrite A. cbn [negb]. rewrite orb_false_r. destruct (starts_with tag m) eqn:T; cbn [negb].
    + apply tag_iff in T. cbn [snd]. fold (noted m t s). destruct (noted_sound m t s S) as [S1 [C [FE [AE [PE [ME [PC _]]]]]]]. rewrite Z.add_0_r. destruct (Z.leb_spec (t_max s) (t_count (noted m t s))) as [L|L].
      * rewrite write_holds; [apply noted_holds|exact S1|congruence|]. intros _. rewrite FE, PE. apply F. split; [exact T|]. rewrite <- C. exact L.
      * apply noted_holds.
    + cbn [snd]. destruct (list_eq_dec Z.eq_dec m n) as [->|]; [|lia]. apply (proj2 (tag_iff n)) in O. congruence.
  - rewrite write_holds; [lia|exact S|exact A|exact F].
Qed.
End Measure.
Lemma step_active o s : o <> Disable -> o <> Ignore -> t_active s = true -> t_active (step o s) = true.
Proof.
  intros D I A. destruct o; cbn [step]; try congruence; try exact A.
  - unfold track. destruct (_ || _); [exact A|]. cbn [snd]. fold (noted n timing s). assert (AE : t_active (noted n timing s) = t_active s) by (unfold noted; destruct (bump _ _ _); reflexivity).
    destruct (_ <=? _); [rewrite (proj1 (write_keeps _ _ _))|]; congruence.
  - rewrite (proj1 (write_keeps _ _ _)). exact A.
  - unfold enable. cbn. destruct (t_readonly s); [exact A|reflexivity].
Qed.
Lemma run_cons o l s : run (o :: l) s = run l (step o s). Proof. reflexivity. Qed.
Lemma run_sound l : forall s, sound s -> sound (run l s).
Proof. induction l as [|o l IH]; intros s S; [exact S|]. rewrite run_cons. apply IH, step_sound, S. Qed.
Lemma counted_cons g n o l : counted g n (o :: l) = counted g n [o] + counted g n l.
Proof. destruct o; cbn; lia. Qed.
Lemma run_holds f g n l : measures f g -> ours n -> forall s, sound s -> t_active s = true -> stays_on l -> no_clash l s -> holds f n (run l s) = holds f n s + counted g n l.
Proof.
  intros M O. induction l as [|o l IH]; intros s S A [D [C I]] NCL.
  - cbn. lia.
  - destruct NCL as [F R]. rewrite run_cons, IH, (step_holds f g M), (counted_cons g n o l); [lia|exact S|exact A|exact F|intros ->; apply C; left; reflexivity|exact O|apply step_sound, S|apply step_active; [intros ->; apply D; left; reflexivity|intros ->; apply I; left; reflexivity|exact A]| |exact R].
    split; [|split]; intro H; [apply D|apply C|apply I]; right; exact H.
Qed.

(** Off means off. *)
Definition off (s : client) : Prop := t_active s = false /\ t_enabled s = false.
Lemma step_off o s : off s -> o <> Enable -> off (step o s) /\ t_files (step o s) = t_files s /\ t_sends (step o s) = t_sends s.
Proof.
  intros [A E] NE. destruct o; cbn [step]; try congruence; try (repeat split; assumption || reflexivity).
  - unfold track. rewrite A, orb_true_r. cbn. repeat split; assumption.
  - unfold write. rewrite A. cbn. repeat split; assumption.
Qed.
Lemma run_off l : ~ In Enable l -> forall s, off s -> off (run l s) /\ t_files (run l s) = t_files s /\ t_sends (run l s) = t_sends s.
Proof.
  induction l as [|o l IH]; intros N s F; [repeat split; apply F|]. rewrite run_cons. destruct (step_off o s F) as [F1 [F2 F3]]; [intros ->; apply N; left; reflexivity|].
  destruct (IH ltac:(intro H; apply N; right; exact H) _ F1) as [G1 [G2 G3]]. rewrite G2, G3. auto.
Qed.
