(** Proofs about colored text: the passes. *)
From Coq Require Import String List ZArith Bool Lia.
From Verif Require Import M_Py M_Str P_Str M_Color S_Color P_Color P_ColorA P_ColorB.
Import ListNotations.
Open Scope Z_scope.

Definition shift (a : str) (r : option (str * str * str * str)) := match r with Some (p, n, t, q) => Some (a ++ p, n, t, q) | None => None end.
(** no match begins in the text, whatever follows *)
Definition calm (L : Z) (a : str) : Prop := forall b c X, a = b ++ c -> c <> [] -> match_at L (c ++ X) = None.
Lemma search_calm L : forall a X, calm L a -> search L (a ++ X) = shift a (search L X).
Proof.
  induction a as [|x a IH]; intros X H; [cbn; destruct (search L X) as [[[[p n] t] q]|]; reflexivity|]. assert (E := H [] (x :: a) X eq_refl ltac:(discriminate)). cbn [app] in E |- *. cbn [search]. rewrite E, IH.
  - destruct (search L X) as [[[[p n] t] q]|]; reflexivity.
  - intros b c Y -> N. exact (H (x :: b) c Y eq_refl N).
Qed.
Lemma calm_nil L : calm L [].
Proof. intros b c X E N. destruct b, c; try discriminate. contradiction. Qed.
Lemma calm_cons L x a : (forall X, match_at L (x :: a ++ X) = None) -> calm L a -> calm L (x :: a).
Proof. intros H C b c X E N. destruct b as [|y b]; cbn in E; [subst c; apply H|]. injection E as _ E. exact (C b c X E N). Qed.
Lemma calm_char L x a : x <> 123 -> calm L a -> calm L (x :: a).
Proof. intros H C. apply calm_cons; [|exact C]. intro X. unfold match_at, opener. cbn [app strip_prefix]. destruct (Z.eqb_spec 123 x); [congruence|reflexivity]. Qed.
Lemma calm_flat L a : Forall (fun c => c <> 123) a -> calm L a.
Proof. intro F. induction F; [apply calm_nil|apply calm_char; assumption]. Qed.
Lemma calm_app L a b : calm L a -> calm L b -> calm L (a ++ b).
Proof.
  intros A B p q X E N. revert p E. induction a as [|x a IH]; intros p E; [exact (B p q X E N)|]. destruct p as [|y p].
  - cbn in E. subst q. replace ((x :: a ++ b) ++ X) with ((x :: a) ++ b ++ X) by (cbn; rewrite app_assoc; reflexivity). apply (A [] (x :: a) (b ++ X) eq_refl). discriminate.
  - cbn in E. injection E as _ E. apply (IH ltac:(intros u v Y -> M; exact (A (x :: u) v Y eq_refl M)) p E).
Qed.
Lemma calm_suffix L a k : calm L a -> calm L (skipn k a).
Proof. intros A b c X E N. apply (A (firstn k a ++ b) c X); [|exact N]. rewrite <- app_assoc, <- E. symmetry. apply firstn_skipn. Qed.
Lemma calm_open L l n : 0 <= L <= 9 -> 0 <= l <= 9 -> l <> L -> Forall letter n -> calm L (open_ l n).
Proof.
  intros HL Hl N F. unfold open_. cbn [app]. assert (R : calm L (37 :: n ++ [32])) by (apply calm_flat, flat_no, name_flat; exact F).
  apply calm_cons; [intro X; unfold match_at; rewrite opener1 by exact HL; cbn [strip_prefix app]; rewrite !Z.eqb_refl; destruct (Z.eqb_spec (48 + L) (48 + l)); [lia|reflexivity]|].
  apply calm_cons; [intro X; unfold match_at; rewrite opener1 by exact HL; cbn [strip_prefix app]; rewrite !Z.eqb_refl; destruct (Z.eqb_spec 123 (48 + l)); [lia|reflexivity]|].
  apply calm_char; [lia|].
  apply calm_cons; [intro X; unfold match_at; rewrite opener1 by exact HL; cbn [strip_prefix app]; rewrite !Z.eqb_refl; destruct (Z.eqb_spec (48 + L) 37); [lia|reflexivity]|].
  apply calm_cons; [intro X; unfold match_at; rewrite opener1 by exact HL; reflexivity|]. exact R.
Qed.
Lemma calm_close L l : 0 <= l <= 9 -> calm L (close_ l).
Proof. intro H. apply calm_flat. unfold close_. repeat (constructor; [lia|]). constructor. Qed.

Definition pair_ (L : Z) (n t : str) : str := open_ L n ++ t ++ close_ L.
Lemma strip_app p X : strip_prefix p (p ++ X) = Some X.
Proof. induction p as [|c p IH]; [reflexivity|]. cbn. rewrite Z.eqb_refl. exact IH. Qed.
Lemma span_name n X : Forall letter n -> span name_char (n ++ 32 :: X) = (n, 32 :: X).
Proof.
  intro F. induction F as [|c n H F IH]; [reflexivity|]. cbn [app span]. replace (name_char c) with true; [rewrite IH; reflexivity|]. symmetry. unfold name_char, letter in *. destruct (Z.leb_spec 97 c), (Z.leb_spec c 122), (Z.leb_spec 65 c), (Z.leb_spec c 90), (Z.eqb_spec c 45); cbn; try reflexivity; lia.
Qed.
Lemma upto_hit close X : upto close (close ++ X) = Some ([], X).
Proof. assert (E := strip_app close X). destruct (close ++ X); cbn [upto]; rewrite E; reflexivity. Qed.
Lemma upto_found L X : 0 <= L <= 9 -> forall t, Forall (fun c => c <> 125 /\ c <> 10) t -> upto (closer L) (t ++ close_ L ++ X) = Some (t, X).
Proof.
  intros HL t F. rewrite closer1 by exact HL. induction F as [|c t [A B] F IH].
  - cbn [app]. exact (upto_hit (close_ L) X).
  - cbn [app upto]. replace (strip_prefix (close_ L) (c :: t ++ close_ L ++ X)) with (@None str) by (unfold close_; cbn [strip_prefix]; destruct (Z.eqb_spec 125 c); [congruence|reflexivity]). destruct (Z.eqb_spec c 10); [contradiction|]. rewrite IH. reflexivity.
Qed.
Lemma match_pair L n t X : 0 <= L <= 9 -> n <> [] -> Forall letter n -> Forall (fun c => c <> 125 /\ c <> 10) t -> match_at L (pair_ L n t ++ X) = Some (n, t, X).
Proof.
  intros HL N Fn Ft. unfold match_at, pair_, open_. rewrite <- !app_assoc. rewrite <- opener1 by exact HL. rewrite strip_app. cbn [app]. rewrite span_name by exact Fn. destruct n as [|x n]; [contradiction|]. cbn [Z.eqb Pos.eqb]. rewrite upto_found by assumption. reflexivity.
Qed.
Lemma search_pair L n t X : 0 <= L <= 9 -> n <> [] -> Forall letter n -> Forall (fun c => c <> 125 /\ c <> 10) t -> search L (pair_ L n t ++ X) = Some ([], n, t, X).
Proof. intros. assert (E := match_pair L n t X H H0 H1 H2). destruct (pair_ L n t ++ X) as [|c s] eqn:P; [discriminate|]. cbn [search]. rewrite E. reflexivity. Qed.

Inductive seg := Q (a : str) | P (n t : str).
Definition okseg (L : Z) (s : seg) : Prop := match s with Q a => calm L a | P n t => n <> [] /\ Forall letter n /\ Forall (fun c => c <> 125 /\ c <> 10) t /\ calm L (encoded n t) /\ encoded n t <> [] end.
Definition inS (L : Z) (s : seg) : str := match s with Q a => a | P n t => pair_ L n t end.
Definition outS (s : seg) : str := match s with Q a => a | P n t => encoded n t end.
Lemma convert_segs L : 0 <= L <= 9 -> forall segs done pos fuel, Forall (okseg L) segs -> calm L done -> (pos <= length done)%nat -> (length segs < fuel)%nat ->
  convert fuel L pos (done ++ flat_map (inS L) segs) = Some (done ++ flat_map outS segs).
Proof.
  intro HL. induction segs as [|s segs IH]; intros done pos fuel F C HP HF.
  - destruct fuel as [|fuel]; [cbn in HF; lia|]. cbn [flat_map convert]. rewrite !app_nil_r. rewrite <- (app_nil_r (skipn pos done)), search_calm by (apply calm_suffix; exact C). reflexivity.
  - pose proof (Forall_inv F) as G. apply Forall_inv_tail in F. cbn [length] in HF. destruct s as [a|n t]; cbn [flat_map inS outS].
    + rewrite !app_assoc. apply IH; [exact F|apply calm_app; assumption|rewrite app_length; lia|lia].
    + destruct G as (N & Fn & Ft & Ce & Ne). destruct fuel as [|fuel]; [lia|]. cbn [convert]. rewrite skipn_app. replace (pos - length done)%nat with 0%nat by lia. cbn [skipn].
      rewrite (search_calm L (skipn pos done)) by (apply calm_suffix; exact C). rewrite (search_calm L done) by exact C. rewrite search_pair by assumption. cbn [shift]. rewrite !app_nil_r.
      replace (pos <? length (done ++ pair_ L n t ++ flat_map (inS L) segs))%nat with true; [|symmetry; apply Nat.ltb_lt; rewrite app_length; unfold pair_, open_; cbn [app length]; lia].
      rewrite skipn_length. replace (pos + (length done - pos) + 1)%nat with (length done + 1)%nat by lia. rewrite (app_assoc done (encoded n t) (flat_map (inS L) segs)), (app_assoc done (encoded n t) (flat_map outS segs)).
      apply IH; [exact F|apply calm_app; assumption| |lia]. rewrite app_length. destruct (encoded n t); [contradiction|]. cbn [length]. lia.
Qed.

Fixpoint segs (L l : Z) (d : doc) : list seg :=
  match d with
  | Nil => []
  | Txt s r => Q s :: segs L l r
  | Tag n b r => (if l <? L then Q (open_ l n) :: segs L (l + 1) b ++ [Q (close_ l)] else [P n (strA (ansiA b))]) ++ segs L l r
  end.
Lemma atom_chars a : Forall good a -> Forall (fun c => c <> 123 /\ c <> 125 /\ c <> 10) (strA a).
Proof.
  intro F. induction F as [|x a G F IH]; [constructor|]. cbn [strA flat_map]. apply Forall_app. split; [|exact IH]. destruct x as [c|n]; cbn in G.
  - unfold plain_char in G. cbn. constructor; [tauto|constructor].
  - each G; subst n; cbn; repeat (constructor; [lia|]); constructor.
Qed.
Lemma segs_in L : 0 <= L -> forall d l, l <= L -> flat_map (inS L) (segs L l d) = stage (L + 1) l d.
Proof.
  intros HL. induction d as [|s r IH|n b IHb r IHr]; intros l Hl; [reflexivity| |]; cbn [segs stage].
  - cbn [flat_map inS]. rewrite IH by exact Hl. reflexivity.
  - rewrite flat_map_app, IHr by exact Hl. f_equal. destruct (Z.ltb_spec l (L + 1)); [|lia]. destruct (Z.ltb_spec l L).
    + cbn [flat_map inS]. rewrite flat_map_app, IHb by lia. cbn [flat_map inS]. rewrite app_nil_r. reflexivity.
    + cbn [flat_map inS]. rewrite app_nil_r, stage_done by lia. replace l with L by lia. reflexivity.
Qed.
Lemma segs_out L : 0 <= L -> forall d l, fair d -> l <= L -> flat_map outS (segs L l d) = stage L l d.
Proof.
  intros HL. induction d as [|s r IH|n b IHb r IHr]; intros l F Hl; [reflexivity| |]; cbn [segs stage fair] in *.
  - cbn [flat_map outS]. rewrite IH by tauto. reflexivity.
  - rewrite flat_map_app, IHr by tauto. f_equal. destruct (Z.ltb_spec l L).
    + cbn [flat_map outS]. rewrite flat_map_app, IHb by (try tauto; lia). cbn [flat_map outS]. rewrite app_nil_r. reflexivity.
    + cbn [flat_map outS]. rewrite app_nil_r. apply encoded_str, ansiA_good. tauto.
Qed.
Lemma segs_ok L : 0 <= L <= 9 -> forall d l, fair d -> 0 <= l <= L -> Forall (okseg L) (segs L l d).
Proof.
  intros HL. induction d as [|s r IH|n b IHb r IHr]; intros l F Hl; [constructor| |]; cbn [segs fair] in *.
  - constructor; [|apply IH; tauto]. apply calm_flat, flat_no, plain_flat. tauto.
  - destruct F as (N & Fn & Fb & Fr). apply Forall_app. split; [|apply IHr; tauto]. destruct (Z.ltb_spec l L).
    + constructor; [apply calm_open; try assumption; lia|]. apply Forall_app. split; [apply IHb; [exact Fb|lia]|]. constructor; [apply calm_close; lia|constructor].
    + constructor; [|constructor]. split; [exact N|]. split; [exact Fn|]. pose proof (ansiA_good b Fb) as G. split; [eapply Forall_impl; [|exact (atom_chars _ G)]; cbn; tauto|]. rewrite encoded_str by exact G. split.
      * apply calm_flat. eapply Forall_impl; [|apply atom_chars, encA_good; exact G]. cbn. tauto.
      * unfold encA. rewrite strA_app. intro E. apply app_eq_nil in E. destruct E as [_ E]. discriminate.
Qed.
Fixpoint size (d : doc) : nat := match d with Nil => 0 | Txt _ r => S (size r) | Tag _ b r => 2 + size b + size r end.
Lemma segs_size L : forall d l, (length (segs L l d) <= size d)%nat.
Proof. induction d as [|s r IH|n b IHb r IHr]; intro l; cbn [segs size length]; [lia|specialize (IH l); lia|]. rewrite app_length. specialize (IHr l). specialize (IHb (l + 1)). destruct (l <? L); cbn [length]; rewrite ?app_length; cbn [length]; lia. Qed.
Lemma passes_doc d fuel : fair d -> (size d < fuel)%nat -> forall k, (k <= 10)%nat -> passes fuel k (stage (Z.of_nat k) 0 d) = Some (strA (ansiA d)).
Proof.
  intros F HF. induction k as [|k IH]; intro K.
  - cbn [passes]. rewrite stage_done by lia. reflexivity.
  - cbn [passes]. rewrite Nat2Z.inj_succ. unfold Z.succ. rewrite <- segs_in by lia. assert (C := convert_segs (Z.of_nat k) ltac:(lia) (segs (Z.of_nat k) 0 d) [] 0 fuel). cbn [app] in C. rewrite C; [|apply segs_ok; [lia|exact F|lia]|apply calm_nil|cbn; lia|pose proof (segs_size (Z.of_nat k) d 0); lia].
    rewrite segs_out by (try assumption; lia). apply IH. lia.
Qed.
Lemma colored d fuel : fair d -> depth d <= 10 -> (cost d + size d < fuel)%nat -> colorfy fuel (write d) = Some (Ok (strA (ansiA d))).
Proof.
  intros F D HF. unfold colorfy. assert (L := label_doc (Z.max (depth d) 1) d 0 (fuel - cost d) [] F ltac:(lia) ltac:(lia) ltac:(lia)). rewrite app_nil_r in L. replace (cost d + (fuel - cost d))%nat with fuel in L by lia. rewrite L.
  destruct (fuel - cost d)%nat eqn:E; [lia|]. cbn [label put]. rewrite app_nil_r. assert (DD := depths_doc (Z.max (depth d) 1) [] d 0 F ltac:(lia) ltac:(lia) ltac:(lia)). rewrite !app_nil_r in DD. rewrite DD. cbn [depths]. rewrite ?app_nil_r, deepest.
  replace (S (Z.to_nat (Z.max (depth d - 1) 0))) with (Z.to_nat (Z.max (depth d) 1)) by (pose proof (depth_nn d); lia).
  pose proof (passes_doc d fuel F ltac:(lia) (Z.to_nat (Z.max (depth d) 1)) ltac:(lia)) as PD. rewrite Z2Nat.id in PD by lia. rewrite PD. reflexivity.
Qed.
