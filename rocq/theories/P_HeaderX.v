(** Proofs about text file headers: values that were broken over several lines. *)
From Coq Require Import List ZArith Bool Lia.
From Verif Require Import LibList M_Py M_Str P_Str M_Header S_Header P_Header P_HeaderP.
Import ListNotations.
Open Scope Z_scope.

Lemma starts_split (p : str) : forall s, starts_with p s = true -> exists r, s = p ++ r.
Proof.
  induction p as [|a p IH]; intros [|b s] H; cbn in H; try discriminate; [exists []|exists (b :: s)|]; try reflexivity.
  apply andb_prop in H. destruct H as [H1 H2]. apply Z.eqb_eq in H1. subst b. destruct (IH s H2) as [r ->]. exists r. reflexivity.
Qed.
Lemma drop_dots_id : forall s, (forall a b, s <> a ++ dots ++ b) -> drop_dots 0 s = s.
Proof.
  induction s as [|x s IH]; intro H; [reflexivity|]. cbn [drop_dots]. destruct (starts_with dots (x :: s)) eqn:E.
  - destruct (starts_split _ _ E) as [r R]. destruct (H [] r). exact R.
  - f_equal. apply IH. intros a b Q. apply (H (x :: a) b). cbn [app]. rewrite Q. reflexivity.
Qed.
Lemma drop_dots_lead s : (forall a b, s <> a ++ dots ++ b) -> drop_dots 0 (dots ++ s) = s.
Proof. intro H. cbn. apply drop_dots_id. exact H. Qed.

Section Wrapped.
Context {J : Type} (loads : str -> option J) (of_text : str -> J) (as_text : J -> option str) (plus : J -> str -> option J).
Context (as_of : forall t, as_text (of_text t) = Some t) (plus_of : forall a b, plus (of_text a) b = Some (of_text (a ++ b))).
Context (c i : Z) (Hc : good_comment c) (Hd : c <> 46) (Hi : 1 <= i).
Notation step := (step loads of_text as_text plus c).
Notation steps := (steps loads of_text as_text plus c).

Definition more (t : str) : str := [c] ++ spaces i ++ dots ++ t.
Lemma will_more t : starts_with ([c] ++ spaces i ++ dots) (more t) = true.
Proof. unfold more. replace ([c] ++ spaces i ++ dots ++ t) with (([c] ++ spaces i ++ dots) ++ t) by (rewrite <- !app_assoc; reflexivity). generalize ([c] ++ spaces i ++ dots). induction l as [|x l IH]; [reflexivity|]. cbn. rewrite Z.eqb_refl. exact IH. Qed.
Lemma clean_line s : no_blank_ends s -> ~ In c s -> rstrip (drop_char c ([c] ++ spaces i ++ s)) = spaces i ++ s.
Proof.
  intros N C. destruct Hc as [H1 H2]. destruct (clean_text c i s [] H1 N C (Forall_nil _)) as [Q _]. rewrite app_nil_r in Q. unfold clean in Q. cbn [app] in Q. rewrite starts_c in Q. exact Q.
Qed.
Lemma strip_lead n s : no_blank_ends s -> strip (spaces n ++ s) = s.
Proof. intros (N & A & L). rewrite <- (app_nil_r (spaces n ++ s)), <- app_assoc. rewrite strip_pad by (auto using spaces_all). apply strip_id. split; [apply edge_hd; exact A|apply edge_rev; assumption]. Qed.
Definition piece (t : str) : Prop := no_blank_ends t /\ ~ In c t /\ ~ In 58 t /\ (forall a b, t <> a ++ [46; 46; 46; 32] ++ b).
Definition nxt (o : option str) : bool := match o with Some n => starts_with ([c] ++ spaces i ++ dots) n | None => false end.

Lemma first_line k v next : good_name c k -> no_blank_ends v -> ~ In c v ->
  step (mkS [] [] (-1) (-1)) ([c] ++ spaces i ++ k ++ [58; 32] ++ v) next = Ok (mkS [(k, Val (loaded loads of_text (nxt next) v))] [] i i).
Proof.
  intros K V C. pose proof K as ((N & A & L) & O & Co & Cc & D). pose proof V as (VN & VA & VL).
  assert (NB : no_blank_ends (k ++ [58; 32] ++ v)).
  { split; [intro X; apply app_eq_nil in X; destruct X; contradiction|]. split; [rewrite hd_app by exact N; exact A|]. rewrite last_app_ne by discriminate. rewrite last_app_ne by exact VN. exact VL. }
  assert (NC : ~ In c (k ++ [58; 32] ++ v)).
  { intro X. apply in_app_or in X. destruct X as [X|[X|[X|X]]]; [contradiction| | |contradiction]; destruct Hc as [H1 H2]; [congruence|subst c; discriminate]. }
  unfold M_Header.step. cbn [app]. rewrite starts_c. cbn [negb].
  pose proof (clean_line _ NB NC) as Q. cbn [app] in Q. rewrite Q.
  assert (NE : spaces i ++ k ++ 58 :: 32 :: v <> []) by (intro X; apply app_eq_nil in X; destruct X as [_ X]; apply app_eq_nil in X; destruct X; contradiction).
  destruct (spaces i ++ k ++ 58 :: 32 :: v) as [|x r] eqn:E; [contradiction|]. rewrite <- E. clear NE.
  rewrite text_indent; [|lia|rewrite hd_app by exact N; exact A|intro X; apply app_eq_nil in X; destruct X; contradiction].
  rewrite app_assoc. rewrite split1_found by (apply no_colon; exact Co). rewrite (strip_lead i k) by (split; auto).
  change (32 :: v) with (spaces 1 ++ v). rewrite (strip_lead 1 v V). cbn [p_curr p_base p_path p_root].
  destruct (Z.ltb_spec (-1) i); [|lia]. cbn [Z.eqb]. destruct v as [|y w]; [contradiction|]. destruct k as [|z k]; [contradiction|]. reflexivity.
Qed.
Lemma more_line k t next d : str_eqb k k = true -> piece t ->
  step (mkS [(k, Val (of_text d))] [] i i) (more t) next = Ok (mkS [(k, Val (loaded loads of_text (nxt next) (d ++ t)))] [] i i).
Proof.
  intros RK (V & C & Co & Dt). pose proof V as (VN & VA & VL).
  assert (NB : no_blank_ends (dots ++ t)) by (split; [discriminate|split; [reflexivity|rewrite last_app_ne by exact VN; exact VL]]).
  assert (NC : ~ In c (dots ++ t)).
  { intro X. apply in_app_or in X. destruct X as [X|X]; [|contradiction]. destruct Hc as [H1 H2]. destruct X as [X|[X|[X|[X|[]]]]]; try congruence. subst c. discriminate. }
  unfold M_Header.step, more. change ([c] ++ spaces i ++ dots ++ t) with (c :: (spaces i ++ dots ++ t)). rewrite starts_c. cbn [negb].
  pose proof (clean_line _ NB NC) as Q. change ([c] ++ spaces i ++ dots ++ t) with (c :: (spaces i ++ dots ++ t)) in Q. rewrite Q.
  assert (NE : spaces i ++ dots ++ t <> []) by (intro X; apply app_eq_nil in X; destruct X as [_ X]; discriminate).
  destruct (spaces i ++ dots ++ t) as [|x r] eqn:E; [contradiction|]. rewrite <- E. clear NE.
  rewrite text_indent; [|lia|reflexivity|discriminate].
  rewrite split1_none. 2: { apply no_colon. intro X. apply in_app_or in X. destruct X as [[X|[X|[X|[X|[]]]]]|X]; try discriminate X. contradiction. }
  rewrite (strip_lead i _ NB). cbn [p_curr p_base p_path p_root]. rewrite Z.ltb_irrefl. cbn [edit]. unfold continue_. cbn [last fst get]. rewrite RK.
  rewrite drop_dots_lead by exact Dt. rewrite plus_of. fold (nxt next). unfold loaded. destruct (nxt next); cbn [bind put]; [rewrite RK; reflexivity|].
  rewrite as_of. cbn [bind put]. rewrite RK. reflexivity.
Qed.
Lemma more_lines k : forall ts d, str_eqb k k = true -> ts <> [] -> Forall piece ts ->
  steps (mkS [(k, Val (of_text d))] [] i i) (map more ts) = Ok (mkS [(k, Val (loaded loads of_text false (d ++ concat ts)))] [] i i).
Proof.
  induction ts as [|t ts IH]; intros d RK N F; [contradiction|]. pose proof (Forall_inv F) as P. apply Forall_inv_tail in F. cbn [map M_Header.steps]. rewrite more_line by assumption. cbn [bind].
  destruct ts as [|t2 ts]; [cbn [map hd_error nxt M_Header.steps concat]; rewrite app_nil_r; reflexivity|].
  cbn [map hd_error]. unfold nxt. rewrite will_more. unfold loaded at 1. change (more t2 :: map more ts) with (map more (t2 :: ts)). rewrite IH by (try discriminate; assumption). cbn [concat]. rewrite <- !app_assoc. reflexivity.
Qed.
End Wrapped.
