(** Proofs about the upload of telemetry. *)
From Coq Require Import List ZArith Bool Lia.
From Verif Require Import LibList M_Py M_Str M_Tele S_Tele P_Tele.
Import ListNotations.
Open Scope Z_scope.

Definition names (w : world) : list (Z * Z) := map f_name (w_files w).
Lemma history_snoc l e w : history (l ++ [e]) w = happens e (history l w).
Proof. unfold history. rewrite fold_left_app. reflexivity. Qed.
Lemma exists_last_or_nil {A} (l : list A) : l = [] \/ exists l2 x, l = l2 ++ [x].
Proof. destruct l as [|a l] using rev_ind; [left; reflexivity|right; eauto]. Qed.
Lemma NoDup_app_snoc {A} (s t : list A) m : NoDup (s ++ m :: t) -> NoDup (s ++ [m]).
Proof.
  intro N. induction s as [|x s IH]; cbn in *; [repeat constructor; auto|]. inversion N; subst. constructor; [|apply IH; assumption].
  intro H. apply H1. apply in_app_or in H. apply in_or_app. destruct H as [H|[H|[]]]; [auto|right; left; exact H].
Qed.
Section Up.
Context (w0 : world).
Notation past := (fun l => history l w0).
Notation read_half := (fun n l => read_half n l w0).
Notation completed := (fun n p l => completed n p l w0).
Lemma read_half_snoc n l e : read_half n l -> read_half n (l ++ [e]).
Proof. intros [b [a [all [todo [got [-> H]]]]]]. exists b, (a ++ [e]), all, todo, got. rewrite <- app_assoc. auto. Qed.
Lemma completed_snoc n p l e : completed n p (l ++ [e]) -> completed n p l \/ exists now, e = Filled n p now /\ half_there n (past l).
Proof.
  intros [b [a [now [E H]]]]. destruct (exists_last_or_nil a) as [->|[a' [x ->]]].
  - apply app_inj_tail in E. destruct E as [E1 E2]. subst b e. right. eauto.
  - left. change (b ++ Filled n p now :: a' ++ [x]) with (b ++ (Filled n p now :: a') ++ [x]) in E. rewrite app_assoc in E. apply app_inj_tail in E. destruct E as [-> _]. exists b, a', now. auto.
Qed.
(** what the upload may forget about the logs [ns]: those half there were read so; the others are in [P] or were read half *)
Definition safe (l : list event) (w : world) (ns : list (Z * Z)) (P : Z -> Prop) : Prop :=
  NoDup ns /\ forall n, In n ns -> In n (names w) /\ (half_there n w -> read_half n l) /\ forall p, on_disk n p w -> P p \/ read_half n l.
Definition stage (l : list event) (w : world) : Prop :=
  match w_up w with
  | None => True
  | Some (Reading all todo got) => exists seen, all = seen ++ todo /\ NoDup all /\ (forall n, In n all -> In n (names w)) /\ safe l w seen (fun p => In p got)
  | Some (Sending all got) => safe l w all (fun p => In p got)
  | Some (Removing todo) => safe l w todo (fun p => In p (w_server w))
  end.
Definition inv (l : list event) (w : world) : Prop :=
  NoDup (names w) /\ stage l w /\ forall n p, completed n p l -> on_disk n p w \/ In p (w_server w) \/ read_half n l.

Lemma on_disk_name n p w : on_disk n p w -> In n (names w). Proof. intros [t H]. apply (in_map f_name) in H. exact H. Qed.
Lemma half_name n w : half_there n w -> In n (names w). Proof. intros [t H]. apply (in_map f_name) in H. exact H. Qed.
Lemma find_file_in n l f : find_file n l = Some f -> In f l /\ f_name f = n.
Proof. intro E. unfold find_file in E. apply find_some in E. destruct E as [I K]. apply same_log_iff in K. auto. Qed.
Lemma find_file_none n l : find_file n l = None -> ~ In n (map f_name l).
Proof.
  intros E I. apply in_map_iff in I. destruct I as [f [<- I]]. unfold find_file in E. apply (find_none _ _ E) in I. assert (K : same_log (f_name f) (f_name f) = true) by (apply same_log_iff; reflexivity). congruence.
Qed.
Lemma same_file (l : list file) f g : NoDup (map f_name l) -> In f l -> In g l -> f_name f = f_name g -> f = g.
Proof.
  induction l as [|h l IH]; intros N I J E; [destruct I|]. cbn in N. inversion N; subst. destruct I as [->|I], J as [->|J]; auto.
  - exfalso. apply H1. rewrite E. apply in_map, J.
  - exfalso. apply H1. rewrite <- E. apply in_map, I.
Qed.
(** what one event does to the logs *)
Definition fill (n : Z * Z) (p now : Z) (f : file) : file := if same_log (f_name f) n then match f_text f with Part => mkF n (Whole p) now | Whole _ => f end else f.
Lemma fill_name n p now f : f_name (fill n p now f) = f_name f.
Proof. unfold fill. destruct (same_log (f_name f) n) eqn:K; [|reflexivity]. apply same_log_iff in K. destruct (f_text f); [symmetry; exact K|reflexivity]. Qed.
Lemma fill_whole n p now f m q t : fill n p now f = mkF m (Whole q) t -> (exists t, f = mkF m (Whole q) t) \/ (m = n /\ q = p /\ exists t, f = mkF n Part t).
Proof.
  unfold fill. destruct (same_log (f_name f) n) eqn:K; [|intros ->; left; eauto]. apply same_log_iff in K. destruct f as [fn [|x] ft]; cbn in *; [|intros ->; left; eauto]. intro E. injection E as <- <- <-. subst. right. eauto.
Qed.
Lemma fill_part n p now f m t : fill n p now f = mkF m Part t -> f = mkF m Part t /\ m <> n.
Proof.
  unfold fill. destruct (same_log (f_name f) n) eqn:K.
  - destruct f as [fn [|x] ft]; cbn in *; intro E; [discriminate|]. rewrite E in *. discriminate.
  - intros ->. cbn in K. split; [reflexivity|]. intros ->. assert (same_log n n = true) by (apply same_log_iff; reflexivity). congruence.
Qed.
Lemma safe_same l e w w' ns P : names w' = names w -> (forall n, half_there n w' -> half_there n w) -> (forall n p, on_disk n p w' -> on_disk n p w \/ half_there n w) -> safe l w ns P -> safe (l ++ [e]) w' ns P.
Proof.
  intros E1 E2 E3 [N S]. split; [exact N|]. intros n I. destruct (S n I) as [A [B C]]. rewrite E1. split; [exact A|]. split.
  - intro H. apply read_half_snoc, B, E2, H.
  - intros p H. destruct (E3 _ _ H) as [H'|H']; [destruct (C p H') as [H2|H2]; [auto|right; apply read_half_snoc, H2]|right; apply read_half_snoc, B, H'].
Qed.
Lemma stage_same l e w w' : names w' = names w -> w_up w' = w_up w -> w_server w' = w_server w -> (forall n, half_there n w' -> half_there n w) -> (forall n p, on_disk n p w' -> on_disk n p w \/ half_there n w) ->
  stage l w -> stage (l ++ [e]) w'.
Proof.
  intros E1 U V E2 E3 S. unfold stage in *. rewrite U, V. destruct (w_up w) as [[all todo got|all got|todo]|]; [| | |exact I].
  - destruct S as [seen [A [B [C D]]]]. exists seen. rewrite E1. split; [exact A|]. split; [exact B|]. split; [exact C|]. exact (safe_same _ _ _ _ _ _ E1 E2 E3 D).
  - exact (safe_same _ _ _ _ _ _ E1 E2 E3 S).
  - exact (safe_same _ _ _ _ _ _ E1 E2 E3 S).
Qed.
Lemma safe_weaken l e w ns (P Q : Z -> Prop) : (forall p, P p -> Q p) -> safe l w ns P -> safe (l ++ [e]) w ns Q.
Proof.
  intros HP [N S]. split; [exact N|]. intros n I. destruct (S n I) as [A [B C]]. split; [exact A|]. split; [intro H; apply read_half_snoc, B, H|]. intros p H. destruct (C p H) as [H2|H2]; [left; auto|right; apply read_half_snoc, H2].
Qed.
(** events that do not touch the logs *)
Lemma rest l e w : (forall n p now, e <> Filled n p now) -> (forall n p, completed n p l -> on_disk n p w \/ In p (w_server w) \/ read_half n l) ->
  forall w', (forall n p, on_disk n p w -> on_disk n p w' \/ In p (w_server w') \/ read_half n (l ++ [e])) -> (forall p, In p (w_server w) -> In p (w_server w')) ->
  forall n p, completed n p (l ++ [e]) -> on_disk n p w' \/ In p (w_server w') \/ read_half n (l ++ [e]).
Proof.
  intros NF C w' D V n p K. destruct (completed_snoc n p l e K) as [K'|[now [-> _]]]; [|exfalso; exact (NF _ _ _ eq_refl)].
  destruct (C n p K') as [H|[H|H]]; [apply D, H|right; left; apply V, H|right; right; apply read_half_snoc, H].
Qed.
Lemma inv_step l e : inv l (history l w0) -> inv (l ++ [e]) (history (l ++ [e]) w0).
Proof.
  rewrite history_snoc. set (w := history l w0). intros [N [S C]].
  assert (SAME : forall w', happens e w = w' -> w_files w' = w_files w -> (forall p, In p (w_server w) -> In p (w_server w')) -> stage (l ++ [e]) w' -> (forall n p now, e <> Filled n p now) -> inv (l ++ [e]) (happens e w)).
  { intros w' -> F V ST NF. split; [unfold names; rewrite F; exact N|]. split; [exact ST|]. apply (rest l e w NF C); [|exact V]. intros n p [t H]. left. exists t. rewrite F. exact H. }
  destruct e as [n now|n p now|now| |received empty|works|].
  - (* opened *)
    cbn [happens]. destruct (find_file n (w_files w)) as [f|] eqn:FF.
    + cbn [happens] in SAME. rewrite FF in SAME. apply (SAME w); [reflexivity|reflexivity|auto| |discriminate]. apply (stage_same l _ w w); auto.
    + apply find_file_none in FF. split; [|split].
      * unfold names in *. cbn [w_files]. rewrite map_app. apply NoDup_Add with (a := n) (l := map f_name (w_files w)); [|split; assumption]. cbn [map f_name]. rewrite <- (app_nil_r (map f_name (w_files w))) at 1. apply Add_app.
      * assert (SF : forall ns P, (forall m, In m ns -> In m (names w)) -> safe l w ns P -> safe (l ++ [Opened n now]) (mkW (w_files w ++ [mkF n Part now]) (w_up w) (w_server w)) ns P).
        { intros ns P SUB [ND SS]. split; [exact ND|]. intros m I. destruct (SS m I) as [A [B D]]. split; [unfold names in *; cbn [w_files]; rewrite map_app; apply in_or_app; left; exact A|]. split.
          - intros [t H]. cbn [w_files] in H. apply in_app_or in H. destruct H as [H|[H|[]]]; [apply read_half_snoc, B; exists t; exact H|]. injection H as <- _. exfalso. apply FF, A.
          - intros p [t H]. cbn [w_files] in H. apply in_app_or in H. destruct H as [H|[H|[]]]; [|discriminate]. destruct (D p (ex_intro _ t H)) as [K|K]; [auto|right; apply read_half_snoc, K]. }
        unfold stage in *. cbn [w_up w_server]. destruct (w_up w) as [[all todo got|all got|todo]|]; [| | |exact I].
        -- destruct S as [seen [A [B [D E]]]]. exists seen. split; [exact A|]. split; [exact B|]. split; [intros m I; unfold names; cbn [w_files]; rewrite map_app; apply in_or_app; left; apply D, I|]. apply SF; [|exact E]. intros m I. apply D. rewrite A. apply in_or_app. auto.
        -- apply SF; [|exact S]. intros m I. apply (proj2 S m I).
        -- apply SF; [|exact S]. intros m I. apply (proj2 S m I).
      * apply (rest l _ w); [discriminate|exact C| |auto]. intros m p [t H]. left. exists t. cbn [w_files]. apply in_or_app. auto.
  - (* filled *)
    cbn [happens]. change (fun f => if same_log (f_name f) n then match f_text f with Part => mkF n (Whole p) now | Whole _ => f end else f) with (fill n p now).
    assert (NE : map f_name (map (fill n p now) (w_files w)) = map f_name (w_files w)) by (rewrite map_map; apply map_ext; apply fill_name).
    split; [unfold names; cbn [w_files]; rewrite NE; exact N|]. split.
    + apply (stage_same l _ w); [unfold names; cbn [w_files]; exact NE|reflexivity|reflexivity| | |exact S].
      * intros m [t H]. cbn [w_files] in H. apply in_map_iff in H. destruct H as [f [E H]]. apply fill_part in E. destruct E as [-> _]. exists t. exact H.
      * intros m q [t H]. cbn [w_files] in H. apply in_map_iff in H. destruct H as [f [E H]]. apply fill_whole in E. destruct E as [[t' ->]|[-> [-> [t' ->]]]]; [left; exists t'; exact H|right; exists t'; exact H].
    + intros m q K. destruct (completed_snoc m q l _ K) as [K'|[now' [E [t H]]]].
      * destruct (C m q K') as [[t H]|[H|H]]; [left; exists t|right; left; exact H|right; right; apply read_half_snoc, H]. cbn [w_files]. apply in_map_iff. exists (mkF m (Whole q) t). split; [|exact H].
        unfold fill. cbn [f_name f_text]. destruct (same_log m n); reflexivity.
      * injection E as <- <- <-. left. exists now. cbn [w_files]. apply in_map_iff. exists (mkF n Part t). split; [|exact H]. unfold fill. cbn [f_name f_text]. rewrite (proj2 (same_log_iff n n) eq_refl). reflexivity.
  - (* starts *)
    apply (SAME _ eq_refl); try discriminate; cbn [happens].
    + destruct (w_up w); [reflexivity|]. destruct (w_files w) eqn:F; [exact F|]. rewrite <- F. destruct (_ <? _); reflexivity.
    + intro p. destruct (w_up w); [auto|]. destruct (w_files w); [auto|]. destruct (_ <? _); auto.
    + assert (ID : stage (l ++ [Starts now]) w) by (apply (stage_same l _ w w); auto). destruct (w_up w) eqn:U; [exact ID|]. destruct (w_files w) as [|f fs] eqn:F; [exact ID|]. rewrite <- F. destruct (_ <? _); [exact ID|].
      unfold stage. cbn [w_up]. exists []. split; [reflexivity|]. split; [exact N|]. split; [auto|]. split; [constructor|intros m []].
  - (* reads *)
    apply (SAME _ eq_refl); try discriminate; cbn [happens].
    + destruct (w_up w) as [[all [|m todo] got|all got|todo]|]; reflexivity.
    + intro p. destruct (w_up w) as [[all [|m todo] got|all got|todo]|]; auto.
    + assert (ID : stage (l ++ [Reads]) w) by (apply (stage_same l _ w w); auto). destruct (w_up w) as [[all [|m todo] got|all got|todo]|] eqn:U; try exact ID.
      * unfold stage in *. cbn [w_up]. rewrite U in S. destruct S as [seen [A [B [D E]]]]. rewrite app_nil_r in A. subst seen. destruct got as [|q got]; [exact I|]. exact (safe_weaken l _ w all _ _ (fun p H => H) E).
      * unfold stage in *. cbn [w_up]. rewrite U in S. destruct S as [seen [A [B [D E]]]]. exists (seen ++ [m]). rewrite <- app_assoc. cbn [app]. split; [exact A|]. split; [exact B|]. split; [exact D|].
        assert (RH : half_there m w -> read_half m (l ++ [Reads])) by (intro H; exists l, [], all, todo, got; auto).
        set (got' := match find_file m (w_files w) with Some f => _ | None => _ end).
        assert (GI : forall p, In p got -> In p got').
        { intros p H. unfold got'. destruct (find_file m (w_files w)) as [f|]; [|exact H]. destruct (f_text f); [exact H|apply in_or_app; auto]. }
        assert (GM : forall p, on_disk m p w -> In p got').
        { intros p [t H]. unfold got'. destruct (find_file m (w_files w)) as [f|] eqn:FF.
          - apply find_file_in in FF. destruct FF as [FI FN]. assert (EF : f = mkF m (Whole p) t) by (apply (same_file (w_files w)); [exact N|exact FI|exact H|exact FN]). rewrite EF. cbn [f_text]. apply in_or_app. right. left. reflexivity.
          - apply find_file_none in FF. exfalso. apply FF. apply (in_map f_name) in H. exact H. }
        destruct E as [ND SS]. split.
        { rewrite A in B. apply NoDup_app_snoc with (t := todo). exact B. }
        intros k I. apply in_app_or in I. destruct I as [I|[<-|[]]].
        -- destruct (SS k I) as [X [Y Z0]]. split; [exact X|]. split; [intro H; apply read_half_snoc, Y, H|]. intros p H. destruct (Z0 p H) as [K|K]; [left; apply GI, K|right; apply read_half_snoc, K].
        -- split; [apply D; rewrite A; apply in_or_app; right; left; reflexivity|]. split; [exact RH|]. intros p H. left. apply GM, H.
  - (* posts *)
    apply (SAME _ eq_refl); try discriminate; cbn [happens].
    + destruct (w_up w) as [[all todo got|all got|todo]|]; reflexivity.
    + intro p. destruct (w_up w) as [[all todo got|all got|todo]|]; auto. cbn [w_server]. destruct received; [intro H; apply in_or_app; auto|auto].
    + assert (ID : stage (l ++ [Posts received empty]) w) by (apply (stage_same l _ w w); auto). destruct (w_up w) as [[all todo got|all got|todo]|] eqn:U; try exact ID.
      unfold stage in *. cbn [w_up w_server]. rewrite U in S. destruct received; cbn [andb]; [|exact I]. destruct empty; [|exact I]. apply (safe_weaken l _ w all (fun p => In p got)); [|exact S]. intros p H. cbn [w_server]. apply in_or_app. auto.
  - (* unlinks *)
    destruct (w_up w) as [[all todo got|all got|[|m todo]]|] eqn:U; try (apply (SAME w); [cbn [happens]; rewrite U; reflexivity|reflexivity|auto|apply (stage_same l _ w w); auto|discriminate]).
    + apply (SAME _ eq_refl); try discriminate; cbn [happens]; rewrite U; [reflexivity|auto|exact I].
    + unfold stage in S. rewrite U in S. destruct S as [ND SS]. inversion ND as [|? ? NI ND']; subst. destruct works.
      * cbn [happens]. rewrite U. assert (KE : forall f, In f (filter (fun f => negb (same_log (f_name f) m)) (w_files w)) <-> In f (w_files w) /\ f_name f <> m).
        { intro f. rewrite filter_In. split; intros [A B]; (split; [exact A|]).
          - intros E. rewrite (proj2 (same_log_iff (f_name f) m) E) in B. discriminate.
          - destruct (same_log (f_name f) m) eqn:K; [|reflexivity]. apply same_log_iff in K. contradiction. }
        split; [|split].
        -- unfold names in *. cbn [w_files]. clear -N. induction (w_files w) as [|f fs IH]; [constructor|]. cbn [filter map] in *. inversion N; subst. destruct (negb _); [|apply IH; assumption]. cbn [map]. constructor; [|apply IH; assumption].
           intro H. apply H1. apply in_map_iff in H. destruct H as [g [E H]]. apply filter_In in H. rewrite <- E. apply in_map, H.
        -- unfold stage. cbn [w_up w_server]. split; [exact ND'|]. intros k I. destruct (SS k (or_intror I)) as [A [B D]]. assert (KM : k <> m) by (intros ->; contradiction). split; [|split].
           ++ unfold names in *. cbn [w_files]. apply in_map_iff in A. destruct A as [f [<- A]]. apply in_map. apply KE. auto.
           ++ intros [t H]. cbn [w_files] in H. apply KE in H. apply read_half_snoc, B. exists t. apply H.
           ++ intros p [t H]. cbn [w_files] in H. apply KE in H. destruct (D p (ex_intro _ t (proj1 H))) as [K|K]; [auto|right; apply read_half_snoc, K].
        -- apply (rest l _ w); [discriminate|exact C| |auto]. intros k p H. destruct (Z.eq_dec (fst k) (fst m)) as [E1|E1]; [destruct (Z.eq_dec (snd k) (snd m)) as [E2|E2]|].
           ++ assert (k = m) by (destruct k, m; cbn in *; congruence). subst k. right. destruct (SS m (or_introl eq_refl)) as [_ [_ D]]. destruct (D p H) as [K|K]; [left; exact K|right; apply read_half_snoc, K].
           ++ left. destruct H as [t H]. exists t. cbn [w_files]. apply KE. split; [exact H|]. cbn. congruence.
           ++ left. destruct H as [t H]. exists t. cbn [w_files]. apply KE. split; [exact H|]. cbn. congruence.
      * apply (SAME _ eq_refl); try discriminate; cbn [happens]; rewrite U; [reflexivity|auto|]. unfold stage. cbn [w_up w_server].
        split; [exact ND'|]. intros k I. destruct (SS k (or_intror I)) as [A [B D]]. split; [exact A|]. split; [intro H; apply read_half_snoc, B; exact H|]. intros p H. destruct (D p H) as [K|K]; [auto|right; apply read_half_snoc, K].
  - (* dies *)
    apply (SAME _ eq_refl); try discriminate; cbn [happens]; auto. exact I.
Qed.
Lemma inv_all l : w_files w0 = [] -> w_up w0 = None -> inv l (history l w0).
Proof.
  intros F U. induction l as [|e l IH] using rev_ind.
  - split; [unfold names; cbn; rewrite F; constructor|]. split; [unfold stage; cbn; rewrite U; exact I|]. intros n p [b [a [now [E _]]]]. destruct b; discriminate.
  - apply inv_step, IH.
Qed.
End Up.

(** Nothing is made up. *)
Definition got_of (w : world) : list Z := match w_up w with Some (Reading _ _ got) => got | Some (Sending _ got) => got | _ => [] end.
Definition honest (w0 : world) (l : list event) (w : world) : Prop :=
  forall p, (exists n, on_disk n p w) \/ In p (got_of w) \/ In p (w_server w) -> exists n, completed n p l w0.
Lemma completed_more w0 n p l e : completed n p l w0 -> completed n p (l ++ [e]) w0.
Proof. intros [b [a [now [-> H]]]]. exists b, (a ++ [e]), now. rewrite <- app_assoc. auto. Qed.
Lemma honest_step w0 l e : honest w0 l (history l w0) -> honest w0 (l ++ [e]) (history (l ++ [e]) w0).
Proof.
  rewrite history_snoc. set (w := history l w0). intros G p H.
  assert (K : (exists n, on_disk n p w) \/ In p (got_of w) \/ In p (w_server w) -> exists n, completed n p (l ++ [e]) w0) by (intro Q; destruct (G p Q) as [n Q']; exists n; apply completed_more, Q').
  destruct e as [n now|n q now|now| |received empty|works|]; cbn [happens] in H.
  - destruct (find_file n (w_files w)); [apply K, H|]. destruct H as [[m [t H]]|[H|H]]; [|apply K; auto|apply K; auto]. cbn [w_files] in H. apply in_app_or in H. destruct H as [H|[H|[]]]; [|discriminate]. apply K. left. exists m, t. exact H.
  - destruct H as [[m [t H]]|[H|H]]; [|apply K; auto|apply K; auto]. cbn [w_files] in H. apply in_map_iff in H. destruct H as [f [E H]]. apply fill_whole in E. destruct E as [[t' ->]|[-> [-> [t' ->]]]].
    + apply K. left. exists m, t'. exact H.
    + exists n. exists l, [], now. split; [reflexivity|]. exists t'. exact H.
  - destruct (w_up w) eqn:U; [apply K, H|]. destruct (w_files w) eqn:F; [apply K, H|]. rewrite <- F in H. destruct (_ <? _); [apply K, H|]. destruct H as [[m [t H]]|[[]|H]]; [|apply K; auto]. cbn [w_files] in H. apply K. left. exists m, t. exact H.
  - destruct (w_up w) as [[all [|m todo] got|all got|todo]|] eqn:U; try (apply K, H).
    + destruct H as [[m [t H]]|[H|H]]; [apply K; left; exists m, t; exact H| |apply K; auto]. apply K. right. left. unfold got_of in *. rewrite U. cbn [w_up] in H. destruct got; [destruct H|exact H].
    + destruct H as [[k [t H]]|[H|H]]; [apply K; left; exists k, t; exact H| |apply K; auto]. cbn [got_of w_up] in H. assert (KG : In p got -> exists n, completed n p (l ++ [Reads]) w0) by (intro Q; apply K; right; left; unfold got_of; rewrite U; exact Q).
      destruct (find_file m (w_files w)) as [f|] eqn:FF; [|apply KG, H]. destruct (f_text f) as [|q] eqn:FT; [apply KG, H|]. apply in_app_or in H. destruct H as [H|[<-|[]]]; [apply KG, H|]. apply K. left. exists (f_name f), (f_time f). apply find_file_in in FF. destruct FF as [FI _].
      destruct f; cbn in *. subst. exact FI.
  - destruct (w_up w) as [[all todo got|all got|todo]|] eqn:U; try (apply K, H). destruct H as [[k [t H]]|[H|H]]; [apply K; left; exists k, t; exact H| |].
    + unfold got_of in H. cbn [w_up] in H. destruct (received && empty); destruct H.
    + cbn [w_server] in H. destruct received; [|apply K; auto]. apply in_app_or in H. destruct H as [H|H]; [apply K; auto|]. apply K. right. left. unfold got_of. rewrite U. exact H.
  - destruct (w_up w) as [[all todo got|all got|[|m todo]]|] eqn:U; try (apply K, H).
    + destruct H as [[k [t H]]|[[]|H]]; [apply K; left; exists k, t; exact H|apply K; auto].
    + destruct H as [[k [t H]]|[[]|H]]; [|apply K; auto]. cbn [w_files] in H. apply K. left. exists k, t. destruct works; [apply filter_In in H; apply H|exact H].
  - destruct H as [[k [t H]]|[[]|H]]; [apply K; left; exists k, t; exact H|apply K; auto].
Qed.
Lemma honest_all w0 l : w_files w0 = [] -> w_up w0 = None -> w_server w0 = [] -> honest w0 l (history l w0).
Proof.
  intros F U V. induction l as [|e l IH] using rev_ind; [|apply honest_step, IH]. intros p [[n [t H]]|[H|H]]; exfalso; cbn in *.
  - rewrite F in H. destruct H.
  - unfold got_of in H. rewrite U in H. destruct H.
  - rewrite V in H. destruct H.
Qed.
Lemma oldest_in l : l <> [] -> exists f, In f l /\ f_time f = oldest l.
Proof.
  induction l as [|f [|g l] IH]; intro NE; [congruence|exists f; cbn; auto|]. destruct IH as [h [I E]]; [discriminate|]. change (oldest (f :: g :: l)) with (Z.min (f_time f) (oldest (g :: l))).
  destruct (Z.min_spec (f_time f) (oldest (g :: l))) as [[_ ->]|[_ ->]]; [exists f; split; [left|]; reflexivity|exists h; split; [right; exact I|exact E]].
Qed.
