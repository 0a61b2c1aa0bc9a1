(** Theorems about the argument parsers. *)
From Coq Require Import List ZArith Bool Lia.
From Verif Require Import M_Str M_Parser S_Parser P_Str P_Parser.
Import ListNotations.
Open Scope Z_scope.

Definition special (s : str) : Prop := s = s_all \/ s = s_star \/ s = s_none \/ s = [].
Lemma csv_of_iff : forall {A} (f : str -> option (list A)) (D : str -> list A -> Prop),
  (forall s v, (match strip s with [] => Some [] | i => f i end) = Some v <-> D s v) ->
  forall s,
  (csv_of f s = Value All <-> s = s_all \/ s = s_star) /\
  (csv_of f s = Value NoneOf <-> s = s_none \/ s = []) /\
  (forall l, csv_of f s = Value (Items l) <-> ~ special s /\ exists fs ls, fields s fs /\ Forall2 D fs ls /\ l = concat ls) /\
  (csv_of f s = Rejected <-> ~ special s /\ ~ exists fs ls, fields s fs /\ Forall2 D fs ls) /\
  (forall e, csv_of f s <> Crash e).
Proof.
  intros A f D HD s. unfold csv_of, special.
  assert (I : forall l, each_item f (split 44 s) = Some l <-> exists fs ls, fields s fs /\ Forall2 D fs ls /\ l = concat ls).
  { intro l. rewrite (each_item_iff f D _ l HD). split.
    - intros (ls & F & E). exists (split 44 s), ls. split; [apply fields_iff; auto|auto].
    - intros (fs & ls & F & G & E). apply fields_iff in F. subst fs. exists ls. auto. }
  destruct (str_eqb_spec s s_all) as [->|N1]; [cbn [orb]|destruct (str_eqb_spec s s_star) as [->|N2]; [cbn [orb]|cbn [orb]; destruct (str_eqb_spec s s_none) as [->|N3]; [cbn [orb]|cbn [orb]; destruct (str_eqb_spec s []) as [->|N4]]]].
  - repeat split; try discriminate; auto; try (intros [E|E]; discriminate E); try (intros [N _]; exfalso; apply N; auto).
  - repeat split; try discriminate; auto; try (intros [E|E]; discriminate E); try (intros [N _]; exfalso; apply N; auto).
  - repeat split; try discriminate; auto; try (intros [E|E]; discriminate E); try (intros [N _]; exfalso; apply N; auto).
  - repeat split; try discriminate; auto; try (intros [E|E]; discriminate E); try (intros [N _]; exfalso; apply N; auto).
  - assert (NS : ~ (s = s_all \/ s = s_star \/ s = s_none \/ s = [])) by tauto. destruct (each_item f (split 44 s)) as [l|].
    + split; [split; [discriminate|tauto]|]. split; [split; [discriminate|tauto]|]. split.
      { intro m. split; [intro H; inversion H; subst; split; auto; apply I; auto|]. intros [_ H]. apply I in H. congruence. }
      split; [|discriminate]. split; [discriminate|]. intros [_ H]. exfalso. destruct (proj1 (I l) eq_refl) as (fs & ls & F & G & _). eauto.
    + split; [split; [discriminate|tauto]|]. split; [split; [discriminate|tauto]|]. split.
      { intro m. split; [discriminate|]. intros [_ H]. apply I in H. discriminate. }
      split; [|discriminate]. split; auto. intros _. split; auto. intros (fs & ls & F & G). assert (X : None = Some (concat ls)) by (apply I; eauto). discriminate.
Qed.

(** csv_int_list gives 'all' and 'none' for exactly the documented words.  Of any other string it makes the
    concatenation of the values of its comma-separated fields, each blank, an integer or first~last, and it rejects
    the string when there is no such reading.  No other exception leaves it. *)
Lemma C43_int_list_proof : forall s,
  (csv_int_list s = Value All <-> s = s_all \/ s = s_star) /\
  (csv_int_list s = Value NoneOf <-> s = s_none \/ s = []) /\
  (forall l, csv_int_list s = Value (Items l) <-> ~ special s /\ exists fs ls, fields s fs /\ Forall2 int_field fs ls /\ l = concat ls) /\
  (csv_int_list s = Rejected <-> ~ special s /\ ~ exists fs ls, fields s fs /\ Forall2 int_field fs ls) /\
  (forall e, csv_int_list s <> Crash e).
Proof. apply csv_of_iff. exact int_field_iff. Qed.

(** csv_baseline_list: the same, each field being blank or ant1-ant2 where both sides are an integer or first~last. *)
Lemma C43_baseline_list_proof : forall s,
  (csv_baseline_list s = Value All <-> s = s_all \/ s = s_star) /\
  (csv_baseline_list s = Value NoneOf <-> s = s_none \/ s = []) /\
  (forall l, csv_baseline_list s = Value (Items l) <-> ~ special s /\ exists fs ls, fields s fs /\ Forall2 baseline_field fs ls /\ l = concat ls) /\
  (csv_baseline_list s = Rejected <-> ~ special s /\ ~ exists fs ls, fields s fs /\ Forall2 baseline_field fs ls) /\
  (forall e, csv_baseline_list s <> Crash e).
Proof. apply csv_of_iff. exact baseline_field_iff. Qed.

(** csv_hostname_list: each field is blank, an IPv4 address whose bytes may be spans, a name followed by
    first~last, or a plain name. *)
Lemma C43_hostname_list_proof : forall s,
  (forall l, csv_hostname_list s = Value l <-> exists fs ls, fields s fs /\ Forall2 host_field fs ls /\ l = concat ls) /\
  (csv_hostname_list s = Rejected <-> ~ exists fs ls, fields s fs /\ Forall2 host_field fs ls) /\
  (forall e, csv_hostname_list s <> Crash e).
Proof.
  intro s. unfold csv_hostname_list.
  assert (I : forall l, each_item hostname_item (split 44 s) = Some l <-> exists fs ls, fields s fs /\ Forall2 host_field fs ls /\ l = concat ls).
  { intro l. rewrite (each_item_iff hostname_item host_field _ l host_field_iff). split.
    - intros (ls & F & E). exists (split 44 s), ls. split; [apply fields_iff; auto|auto].
    - intros (fs & ls & F & G & E). apply fields_iff in F. subst fs. exists ls. auto. }
  destruct (each_item hostname_item (split 44 s)) as [l|].
  - split; [|split; [|discriminate]].
    + intro m. rewrite <- I. split; intro H; inversion H; auto.
    + split; [discriminate|]. intro H. exfalso. destruct (proj1 (I l) eq_refl) as (fs & ls & F & G & _). eauto.
  - split; [|split; [|discriminate]].
    + intro m. rewrite <- I. split; discriminate.
    + split; auto. intros _ (fs & ls & F & G). assert (X : None = Some (concat ls)) by (apply I; eauto). discriminate.
Qed.

(** positive_or_zero_int and positive_int accept exactly the integers in range. *)
Lemma C43_positive_int_proof : forall s n,
  (positive_or_zero_int s = Value n <-> int_text s n /\ 0 <= n) /\ (positive_int s = Value n <-> int_text s n /\ 0 < n) /\
  (positive_int s = Rejected <-> ~ exists m, int_text s m /\ 0 < m).
Proof.
  intros s n. unfold positive_int, positive_or_zero_int.
  assert (K : forall m, parse_int s = Some m <-> int_text s m) by (intro; apply parse_int_iff).
  destruct (parse_int s) as [k|].
  - assert (T : int_text s k) by (apply K; auto).
    assert (U : forall m, int_text s m -> m = k) by (intros m I; apply K in I; congruence).
    assert (W : forall P : Z -> Prop, P k -> int_text s k /\ P k) by auto.
    destruct (Z.ltb_spec k 0); [|destruct (Z.leb_spec k 0)].
    + split; [|split]; split; try discriminate; try (intros [I ?]; apply U in I; lia); auto. intros _ (m & I & ?). apply U in I. lia.
    + split; [|split]; split; try discriminate; auto.
      * intro X. injection X as <-. auto.
      * intros [I ?]. apply U in I. congruence.
      * intros [I ?]. apply U in I. lia.
      * intros _ (m & I & ?). apply U in I. lia.
    + split; [|split]; split; try discriminate; auto.
      * intro X. injection X as <-. auto.
      * intros [I ?]. apply U in I. congruence.
      * intro X. injection X as <-. auto.
      * intros [I ?]. apply U in I. congruence.
      * intro X. exfalso. apply X. exists k. auto.
  - split; [|split]; split; try discriminate; auto; try (intros [I ?]; rewrite <- K in I; discriminate). intros _ (m & I & _). rewrite <- K in I. discriminate.
Qed.

(** Reading back what was written: a list of integers printed in base 10 with commas is read back unchanged. *)
Lemma C43_int_list_round_trip_proof : forall l, l <> [] -> csv_int_list (join 44 (map dec l)) = Value (Items l).
Proof.
  intros l NE. apply C43_int_list_proof.
  assert (ND : forall n, ~ In 44 (dec n)) by (intro n; apply dec_no; auto; lia).
  assert (NT : forall n, ~ In 126 (dec n)) by (intro n; apply dec_no; auto; lia).
  assert (S : split 44 (join 44 (map dec l)) = map dec l).
  { apply split_join. - destruct l; [congruence|discriminate]. - apply Forall_forall. intros x I. apply in_map_iff in I. destruct I as (n & <- & _). apply ND. }
  split.
  - intros [E|[E|[E|E]]]; rewrite E in S; destruct l as [|a [|b l]]; try congruence; try discriminate S; inversion S as [E1]; pose proof (parse_dec a) as P; rewrite <- E1 in P; discriminate P.
  - exists (map dec l), (map (fun n => [n]) l). split; [apply fields_iff; auto|]. split.
    + clear. induction l as [|n l IH]; constructor; auto. apply if_ints. constructor. apply parse_int_iff. apply parse_dec.
    + clear. induction l as [|n l IH]; cbn; congruence.
Qed.

Lemma C43_int_list_example_proof :
  csv_int_list [49; 44; 32; 52; 126; 54; 44; 45; 50; 44] = Value (Items [1; 4; 5; 6; -2]) /\       (* "1, 4~6,-2," *)
  csv_int_list [53; 126; 51] = Value (Items []) /\ csv_int_list [49; 44; 120] = Rejected /\ csv_int_list s_star = Value All /\
  csv_baseline_list [49; 126; 50; 45; 53; 44; 55; 45; 45; 56] = Value (Items [(1, 5); (2, 5); (7, -8)]) /\  (* "1~2-5,7--8" *)
  csv_baseline_list [49] = Rejected.
Proof. vm_compute. repeat split. Qed.
Lemma C43_hostname_list_example_proof :
  csv_hostname_list [49; 46; 50; 46; 51; 126; 52; 46; 55; 126; 56] =   (* "1.2.3~4.7~8" *)
    Value [[49; 46; 50; 46; 51; 46; 55]; [49; 46; 50; 46; 51; 46; 56]; [49; 46; 50; 46; 52; 46; 55]; [49; 46; 50; 46; 52; 46; 56]] /\
  csv_hostname_list [97; 57; 126; 49; 49; 44; 98; 99] = Value [[97; 57]; [97; 49; 48]; [97; 49; 49]; [98; 99]] /\ (* "a9~11,bc" *)
  csv_hostname_list [97; 95] = Rejected /\ csv_hostname_list [97; 46; 98; 46; 99] = Rejected.
Proof. vm_compute. repeat split. Qed.
Lemma C43_positive_int_example_proof : positive_int [32; 52; 50] = Value 42 /\ positive_int [48] = Rejected /\ positive_or_zero_int [48] = Value 0 /\ positive_int [120] = Rejected.
Proof. vm_compute. repeat split. Qed.

(** Malformed input is not always rejected: an address with bytes above 255 is accepted ("999.0.0.1"), and the
    leading zeros of a name range are lost, so "n01~02" stands for n1 and n2. *)
Lemma C43_hostname_malformed_refuted_proof :
  csv_hostname_list [57; 57; 57; 46; 48; 46; 48; 46; 49] = Value [[57; 57; 57; 46; 48; 46; 48; 46; 49]] /\
  csv_hostname_list [110; 48; 49; 126; 48; 50] = Value [[110; 49]; [110; 50]].
Proof. vm_compute. split; reflexivity. Qed.
(** An empty (or blank) hours or degrees list is not rejected: string[-1] raises IndexError, whatever the items are. *)
Lemma C43_angle_list_empty_refuted_proof : forall A (f : str -> option A), csv_angle_list f [] = Crash IndexError /\ csv_angle_list f [32; 32] = Crash IndexError.
Proof. intros. split; reflexivity. Qed.
(** With a first non-blank character the angle lists give every item, in order, or reject. *)
Lemma C43_angle_list_proof : forall A (f : str -> option A) s, ~ spaces s ->
  exists body, (rstrip s = body /\ (forall r, body <> r ++ [44]) \/ rstrip s = body ++ [44]) /\
    (forall l, csv_angle_list f s = Value l <-> exists fs, fields body fs /\ Forall2 (fun t v => f t = Some v) fs l) /\
    (csv_angle_list f s = Rejected <-> ~ exists fs l, fields body fs /\ Forall2 (fun t v => f t = Some v) fs l) /\
    (forall e, csv_angle_list f s <> Crash e).
Proof.
  intros A f s N.
  assert (AO : forall fs l, all_of f fs = Some l <-> Forall2 (fun t v => f t = Some v) fs l).
  { induction fs as [|t fs IH]; intro l; cbn.
    - split; [intro H; inversion H; constructor|intro H; inversion H; auto].
    - split.
      + destruct (f t) as [v|] eqn:F; [|discriminate]. destruct (all_of f fs) as [vs|]; [|discriminate]. intro H. inversion H; subst. constructor; auto. apply IH. auto.
      + intro H. inversion H; subst. rewrite H2. apply IH in H4. rewrite H4. auto. }
  assert (G : forall body, (forall l, match all_of f (split 44 body) with Some l => Value l | None => Rejected end = Value l <-> exists fs, fields body fs /\ Forall2 (fun t v => f t = Some v) fs l) /\
    (match all_of f (split 44 body) with Some l => Value l | None => Rejected end = Rejected <-> ~ exists fs l, fields body fs /\ Forall2 (fun t v => f t = Some v) fs l) /\
    (forall e, match all_of f (split 44 body) with Some l => Value l | None => Rejected end <> Crash e)).
  { intro body. pose proof (AO (split 44 body)) as AB. destruct (all_of f (split 44 body)) as [l|].
    - split; [|split; [|discriminate]].
      + intro m. split.
        * intro H. inversion H; subst. exists (split 44 body). split; [apply fields_iff; auto|apply AB; auto].
        * intros (fs & F & H). apply fields_iff in F. subst fs. apply AB in H. congruence.
      + split; [discriminate|]. intro H. exfalso. apply H. exists (split 44 body), l. split; [apply fields_iff; auto|apply AB; auto].
    - split; [|split; [|discriminate]].
      + intro m. split; [discriminate|]. intros (fs & F & H). apply fields_iff in F. subst fs. apply AB in H. discriminate.
      + split; auto. intros _ (fs & l & F & H). apply fields_iff in F. subst fs. apply AB in H. discriminate. }
  unfold csv_angle_list. destruct (rev (rstrip s)) as [|c r] eqn:R.
  - exfalso. apply N. apply strip_blank. assert (E : rstrip s = []) by (rewrite <- (rev_involutive (rstrip s)), R; auto). unfold strip.
    apply strip_blank. unfold rstrip in E. assert (E' : lstrip (rev s) = []) by (rewrite <- (rev_involutive (lstrip (rev s))), E; auto).
    clear -E'. assert (P : forall t, lstrip t = [] -> spaces t).
    { induction t as [|x t IH]; intro H; [constructor|]. cbn in H. destruct (is_space x) eqn:X; [|discriminate]. constructor; auto. apply IH. auto. }
    apply P in E'. unfold spaces in *. rewrite Forall_forall in *. intros x I. apply E'. apply in_rev in I. auto.
  - assert (E : rstrip s = rev r ++ [c]) by (rewrite <- (rev_involutive (rstrip s)), R; auto). destruct (Z.eqb_spec c 44) as [->|NC].
    + exists (rev r). split; [right; auto|]. apply G.
    + exists (rstrip s). split; [left; split; auto; intros q X; rewrite E in X; apply app_inj_tail in X; destruct X; congruence|]. apply G.
Qed.
Lemma C43_angle_list_example_proof : ~ spaces [49; 44; 50; 44; 32] /\ csv_angle_list parse_int [49; 44; 50; 44; 32] = Value [1; 2] /\ csv_angle_list parse_int [49; 44; 44] = Rejected.
Proof. split; [|split; reflexivity]. intro H. inversion H. discriminate. Qed.
