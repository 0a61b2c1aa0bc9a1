(** Lemmas for C105-C107: command scripts, tarballs, the station dynamic MIB. *)
From Coq Require Import String.
From Coq Require Import List ZArith Bool Lia.
From Verif Require Import M_CStruct S_CStruct P_Str P_CStruct P_CStructL M_Meta S_Meta S_Ndp P_Ndp P_Meta.
Import ListNotations.
Open Scope Z_scope.

(** ** Command scripts *)
Lemma dataf_eq : forall n, 0 <= n -> dataf n = [field_of false (mkDecl (cs "data") Char [n])].
Proof.
  intros n Hn. unfold dataf, fields_of.
  set (l2 := cs "                    " ++ cs "char" ++ [32] ++ cs "data" ++ dims_text [[[Num n]]] ++ [59] ++ []).
  assert (T : cs "
                    char data[" ++ dec n ++ cs "];
                    " = join 10 [[]; l2; cs "                    "]).
  { subst l2. cbn [join app dims_text map concat dim_text atom_text]. rewrite app_nil_r.
    change (cs "
                    char data[") with (10 :: cs "                    " ++ cs "char" ++ [32] ++ cs "data" ++ [91]).
    change (cs "];
                    ") with ([93; 59; 10] ++ cs "                    "). repeat (cbn [app]; rewrite <- ?app_assoc). reflexivity. }
  rewrite T. unfold parse_c_struct. rewrite (parse_text false ([] ++ mcs_macros) _ [None; Some (mkDecl (cs "data") Char [n]); None]).
  - reflexivity.
  - discriminate.
  - apply Forall2_cons; [apply Blank_line; constructor|]. apply Forall2_cons; [|apply Forall2_cons; [|constructor]].
    + subst l2. apply (Decl_line _ (mkDecl (cs "data") Char [n])).
      * vm_compute. repeat (constructor; [left; reflexivity|]). constructor.
      * cbn. auto.
      * repeat constructor.
      * discriminate.
      * discriminate.
      * vm_compute. repeat (constructor; [try (left; split; discriminate)|]). constructor.
      * cbn. lia.
      * cbn. constructor; [|constructor]. split; [discriminate|]. split; [constructor; [discriminate|constructor]|].
        exists [[n]]. split; [|cbn; lia]. constructor; [|constructor]. constructor; [cbn; lia|constructor].
      * constructor.
    + apply Blank_line. vm_compute. repeat (constructor; [left; reflexivity|]). constructor.
Qed.
Lemma encode_chars : forall data, bytes_ok data -> concat (map (encode false Char) data) = data.
Proof.
  intros data H. induction H as [|b data B _ IH]; [reflexivity|]. cbn [map concat]. rewrite IH. unfold encode. cbn [bytes_of].
  change (8 * Z.of_nat 1) with 8. change (2 ^ 8) with 256. unfold is_byte in B. rewrite (Z.mod_small b 256) by lia. cbn [le app]. now rewrite Z.mod_small by lia.
Qed.
Lemma data_image : forall data, bytes_ok data -> image false false [(mkDecl (cs "data") Char [zlen data], data)] data.
Proof.
  intros data H. exists data, []. rewrite app_nil_r. split; [reflexivity|]. split; [|split; [constructor|split; [reflexivity|exists (zlen data); cbn; lia]]].
  replace data with ([] ++ concat (map (encode false (d_type (mkDecl (cs "data") Char [zlen data]))) data) ++ []) at 3
    by (cbn [app d_type]; rewrite app_nil_r; now apply encode_chars).
  constructor.
  - constructor.
  - reflexivity.
  - exists 0. reflexivity.
  - unfold d_count. cbn. lia.
  - eapply Forall_impl; [|exact H]. intros b B. unfold is_byte in B. unfold in_range. cbn. lia.
  - constructor.
Qed.
Lemma data_read : forall data rest, bytes_ok data ->
  readinto (fresh (dataf (zlen data))) (data ++ rest) = (data, rest) /\ al (dataf (zlen data)) data "data" = data.
Proof.
  intros data rest H. rewrite dataf_eq by apply zlen_nonneg. pose proof (data_image data H) as IM.
  pose proof (image_size _ _ _ _ IM) as SZ. cbn [map fst] in SZ. split.
  - apply readinto_full. rewrite fresh_len; rewrite SZ; [reflexivity|apply zlen_nonneg].
  - unfold al. apply (image_attr false false _ data (mkDecl (cs "data") Char [zlen data]) data IM); [|now left].
    cbn. constructor; [intros []|constructor].
Qed.


Lemma in_ids : forall x l, In x l -> existsb (Z.eqb x) l = true.
Proof. intros x l H. apply existsb_exists. exists x. split; [auto|apply Z.eqb_refl]. Qed.
Lemma subsystem_in : forall x, 1 <= x <= 20 -> existsb (Z.eqb x) subsystem_ids = true.
Proof. intros x H. apply in_ids. change subsystem_ids with (zseq 1 20). apply zseq_In. lia. Qed.
Lemma command_in : forall x, 0 <= x <= 45 -> existsb (Z.eqb x) command_ids = true.
Proof. intros x H. apply in_ids. apply zseq_In. lia. Qed.

Lemma action_attr : forall v ab n, stored action_fields v ab -> existsb (str_eqb (cs n)) (map d_name action_fields) = true -> a1 actionf ab n = scalar v n.
Proof. intros. now apply (st_a1 _ _ actionf_eq action_nd). Qed.
Lemma action_tv : forall v ab, stored action_fields v ab -> al actionf ab "tv" = v (cs "tv").
Proof. intros. now apply (st_al _ _ actionf_eq action_nd). Qed.
Lemma hd_tv : forall v, hd 0 (v (cs "tv")) = tv v 0.
Proof. intro v. unfold tv. destruct (v (cs "tv")); reflexivity. Qed.
Lemma action_size : sizeof actionf = 32. Proof. rewrite actionf_eq. vm_compute. reflexivity. Qed.
Lemma max_data_eq : max_data = 256. Proof. vm_compute. reflexivity. Qed.

Lemma script_stop : forall fuel bs, script_end bs -> read_commands (S fuel) bs = Ok [].
Proof.
  intros fuel bs [->|(v & ab & rest & -> & S & T)]; cbn [read_commands].
  - rewrite readinto_short by (rewrite zlen_nil; apply zlen_nonneg). cbn [app].
    replace (hd 0 (al actionf (zdrop (zlen (@nil Z)) (fresh actionf)) "tv")) with 0 by (rewrite actionf_eq; vm_compute; reflexivity). reflexivity.
  - rewrite (st_read _ _ actionf_eq _ _ _ _ S) by (eapply st_fresh; [exact actionf_eq|exact S]).
    rewrite (action_tv _ _ S), hd_tv, T. reflexivity.
Qed.
Lemma commands_app : forall cmds bss, Forall2 command_bytes cmds bss -> Forall good_command cmds ->
  Forall (fun c => Forall (fun b => b <> 0) (k_data c)) cmds -> forall tail fuel,
  exists l, read_commands (length cmds + fuel) (concat bss ++ tail) = bind (read_commands fuel tail) (fun r => Ok (l ++ r)) /\ Forall2 command_is cmds l.
Proof.
  intros cmds bss H. induction H as [|c b cmds bss H1 H2 IH]; intros G NZ tail fuel.
  - exists []. split; [|constructor]. cbn. destruct (read_commands fuel tail); reflexivity.
  - inversion G as [|? ? (T & SI & N13 & N19 & CI & LE & L256 & BO) G']; subst. inversion NZ as [|? ? NZ1 NZ']; subst.
    destruct H1 as (ab & -> & S). cbn [concat]. rewrite <- !app_assoc. cbn [read_commands length Nat.add].
    rewrite (st_read _ _ actionf_eq _ _ _ _ S) by (eapply st_fresh; [exact actionf_eq|exact S]).
    rewrite (action_tv _ _ S), hd_tv.
    rewrite (action_attr _ _ "len" S), (action_attr _ _ "sid" S), (action_attr _ _ "cid" S), (action_attr _ _ "bASAP" S) by reflexivity.
    rewrite max_data_eq. rewrite LE.
    destruct (Z.eqb_spec (tv (k_action c) 0) 0) as [E|_]; [contradiction|].
    replace ((0 <? zlen (k_data c)) && (zlen (k_data c) >? 256)) with false
      by (symmetry; apply andb_false_iff; right; rewrite Z.gtb_ltb; apply Z.ltb_ge; lia).
    set (rest := concat bss ++ tail).
    assert (DR : (if 0 <? zlen (k_data c)
                  then let '(d, rest) := readinto (fresh (dataf (zlen (k_data c)))) (k_data c ++ rest) in (Some (ac (dataf (zlen (k_data c))) d "data"), rest)
                  else (None, k_data c ++ rest)) = (match k_data c with [] => None | d => Some d end, rest)).
    { destruct (data_read (k_data c) rest BO) as [R1 R2]. rewrite R1. unfold ac. rewrite R2.
      rewrite (chars_text (k_data c)) by (split; [exact NZ1|now left]).
      destruct (k_data c) as [|x d]; [reflexivity|]. rewrite zlen_cons. pose proof (zlen_nonneg d).
      destruct (Z.ltb_spec 0 (1 + zlen d)); [reflexivity|lia]. }
    rewrite DR. rewrite subsystem_in, command_in by auto. cbn [negb]. unfold sid_DP, sid_ADP.
    destruct (Z.eqb_spec (scalar (k_action c) "sid") 13); [contradiction|]. destruct (Z.eqb_spec (scalar (k_action c) "sid") 19); [contradiction|].
    destruct (IH G' NZ' tail fuel) as (l & R & F). fold rest in R. rewrite R.
    eexists (_ :: l). split.
    + destruct (read_commands fuel tail) as [r|e]; cbn [bind]; reflexivity.
    + constructor; [|exact F]. unfold command_is. cbn. split; [reflexivity|]. split; [reflexivity|].
      split; [|auto]. rewrite negb_true_iff, Z.eqb_neq. tauto.
Qed.
Lemma bytes_many : forall cmds bss, Forall2 command_bytes cmds bss -> (length cmds <= length (concat bss))%nat.
Proof.
  intros cmds bss H. induction H as [|c b cmds bss (ab & -> & S) _ IH]; [cbn; lia|]. cbn [length concat]. rewrite app_length.
  pose proof (st_size _ _ actionf_eq _ _ S) as SZ. rewrite action_size in SZ. unfold zlen in SZ. rewrite app_length. lia.
Qed.

Lemma script_app : forall cmds bss tail, Forall2 command_bytes cmds bss -> Forall good_command cmds ->
  Forall (fun c => Forall (fun b => b <> 0) (k_data c)) cmds ->
  exists l fuel, read_cs (concat bss ++ tail) = bind (read_commands (S fuel) tail) (fun r => Ok (l ++ r)) /\ Forall2 command_is cmds l.
Proof.
  intros cmds bss tail H G NZ. pose proof (bytes_many _ _ H) as L.
  destruct (commands_app cmds bss H G NZ tail (S (length (concat bss) - length cmds + length tail))) as (l & R & F).
  exists l, (length (concat bss) - length cmds + length tail)%nat. split; [|exact F]. rewrite <- R. unfold read_cs. f_equal. rewrite app_length. lia.
Qed.
(** One command read by itself *)
Lemma command_first : forall v ab rest fuel, stored action_fields v ab -> tv v 0 <> 0 ->
  read_commands (S fuel) (ab ++ rest) =
    if (0 <? scalar v "len") && (scalar v "len" >? 256) then Ok []
    else
      let '(data, rest) :=
        if 0 <? scalar v "len" then let '(d, rest) := readinto (fresh (dataf (scalar v "len"))) rest in (Some (ac (dataf (scalar v "len")) d "data"), rest)
        else (None, rest) in
      if negb (existsb (Z.eqb (scalar v "sid")) subsystem_ids) then Raise ValueError
      else if negb (existsb (Z.eqb (scalar v "cid")) command_ids) then Raise ValueError
      else if scalar v "sid" =? sid_DP then Raise RuntimeError
      else if scalar v "sid" =? sid_ADP then Raise RuntimeError
      else bind (read_commands fuel rest) (fun l =>
           Ok (mkCmd (tv v 0) (nth 1 (v (cs "tv")) 0) (negb (scalar v "bASAP" =? 0)) (scalar v "sid") (scalar v "cid") (scalar v "len") data :: l)).
Proof.
  intros v ab rest fuel S T. cbn [read_commands].
  rewrite (st_read _ _ actionf_eq _ _ _ _ S) by (eapply st_fresh; [exact actionf_eq|exact S]).
  rewrite (action_tv _ _ S), hd_tv.
  rewrite (action_attr _ _ "len" S), (action_attr _ _ "sid" S), (action_attr _ _ "cid" S), (action_attr _ _ "bASAP" S) by reflexivity.
  rewrite max_data_eq. destruct (Z.eqb_spec (tv v 0) 0); [contradiction|]. reflexivity.
Qed.
(** The loop ends *)
Lemma readinto_less : forall mem rest m r, readinto mem rest = (m, r) -> (length r <= length rest)%nat /\ (0 < zlen mem -> rest <> [] -> (length r < length rest)%nat).
Proof.
  intros mem rest m r E. unfold readinto in E. inversion E; subst. unfold zdrop, zlen. rewrite skipn_length. split; [lia|].
  intros L NE. destruct rest; [now contradiction NE|]. cbn [length]. lia.
Qed.
Lemma commands_end : forall fuel rest, (length rest < fuel)%nat ->
  (exists l, read_commands fuel rest = Ok l) \/ read_commands fuel rest = Raise ValueError \/ read_commands fuel rest = Raise RuntimeError.
Proof.
  induction fuel as [|fuel IH]; intros rest L; [lia|]. destruct rest as [|x rest]; [left; exists []; apply script_stop; now left|].
  cbn [read_commands]. destruct (readinto (fresh actionf) (x :: rest)) as [a r] eqn:ER.
  apply readinto_less in ER. destruct ER as [_ ER].
  assert (LR : (length r < length (x :: rest))%nat) by (apply ER; [rewrite fresh_len; rewrite action_size; lia|discriminate]). clear ER.
  destruct (hd 0 (al actionf a "tv") =? 0); [eauto|]. destruct ((0 <? a1 actionf a "len") && (a1 actionf a "len" >? max_data)); [eauto|].
  destruct (if 0 <? a1 actionf a "len" then _ else (None, r)) as [data r2] eqn:ED.
  assert (LR2 : (length r2 <= length r)%nat).
  { destruct (0 <? a1 actionf a "len").
    - destruct (readinto (fresh (dataf (a1 actionf a "len"))) r) as [d r'] eqn:E2. apply readinto_less in E2. inversion ED; subst. tauto.
    - inversion ED; subst. lia. }
  destruct (negb (existsb (Z.eqb (a1 actionf a "sid")) subsystem_ids)); [auto|]. destruct (negb (existsb (Z.eqb (a1 actionf a "cid")) command_ids)); [auto|].
  destruct (a1 actionf a "sid" =? sid_DP); [auto|]. destruct (a1 actionf a "sid" =? sid_ADP); [auto|].
  destruct (IH r2) as [(l & ->)|[->| ->]]; [cbn in *; lia|cbn; eauto|auto|auto].
Qed.

(** ** Tarballs *)
Lemma ends_with_iff : forall e n, ends_with e n = true <-> has_ending e n.
Proof.
  intros e n. unfold ends_with, has_ending.
  assert (P : forall p s, starts_with p s = true <-> exists r, s = p ++ r).
  { induction p as [|x p IH]; intro s; cbn; [split; [eauto|auto]|]. destruct s as [|y s]; [split; [discriminate|intros (r & E); discriminate]|].
    rewrite andb_true_iff, Z.eqb_eq, IH. split; [intros [-> (r & ->)]; eauto|intros (r & E); inversion E; eauto]. }
  rewrite P. split; intros (r & E).
  - exists (rev r). rewrite <- (rev_involutive n), E, rev_app_distr, rev_involutive. reflexivity.
  - exists (rev r). rewrite E, rev_app_distr. reflexivity.
Qed.
Lemma first_found : forall p tar t, first_else_last p tar = Ok t -> existsb (fun u => p (fst u)) tar = true ->
  exists l r, tar = l ++ t :: r /\ p (fst t) = true /\ Forall (fun u => p (fst u) = false) l.
Proof.
  intros p. induction tar as [|u tar IH]; intros t E X; [discriminate|]. cbn [first_else_last existsb] in *. destruct (p (fst u)) eqn:PU.
  - inversion E; subst. exists [], tar. auto.
  - cbn in X. destruct tar as [|w tar]; [discriminate|]. destruct (IH t E X) as (l & r & -> & P & F). exists (u :: l), r. cbn. auto.
Qed.
Lemma first_total : forall p tar, tar <> [] -> exists t, first_else_last p tar = Ok t.
Proof.
  intros p. induction tar as [|u tar IH]; intro NE; [now contradiction NE|]. cbn. destruct (p (fst u)); [eauto|]. destruct tar as [|w tar]; [eauto|]. apply IH. discriminate.
Qed.
Lemma first_last : forall p tar t, existsb (fun u => p (fst u)) (tar ++ [t]) = false -> first_else_last p (tar ++ [t]) = Ok t.
Proof.
  intros p. induction tar as [|u tar IH]; intros t X; cbn in *.
  - rewrite orb_false_r in X. now rewrite X.
  - apply orb_false_iff in X. destruct X as [X1 X2]. rewrite X1. specialize (IH t X2).
    destruct (tar ++ [t]) eqn:E; [now apply app_eq_nil in E|]. exact IH.
Qed.

(** The order of the observation files *)
Lemma before_irrefl : forall s, ~ name_before s s.
Proof. induction s as [|c s IH]; intro H; inversion H; subst; [lia|auto]. Qed.
Lemma before_trans : forall a b c, name_before a b -> name_before b c -> name_before a c.
Proof.
  intros a b c H. revert c. induction H as [x s|x y s t L|x s t H IH]; intros c K; inversion K; subst; constructor; auto; lia.
Qed.
Lemma leb_before : forall a b, str_leb a b = true -> a <> b -> name_before a b.
Proof.
  induction a as [|x a IH]; intros [|y b] H NE; cbn in H; [now contradiction NE|constructor|discriminate|].
  destruct (Z.eqb_spec x y) as [->|N]; [constructor; apply IH; [auto|congruence]|]. apply Z.ltb_lt in H. now constructor.
Qed.
Lemma leb_false : forall a b, str_leb a b = false -> name_before b a.
Proof.
  induction a as [|x a IH]; intros [|y b] H; cbn in H; [discriminate|discriminate|constructor|].
  destruct (Z.eqb_spec x y) as [->|N]; [apply Before_tail; auto|]. apply Z.ltb_ge in H. apply Before_char. lia.
Qed.
Fixpoint ordered (l : list member) : Prop :=
  match l with [] => True | t :: r => Forall (fun u => name_before (fst t) (fst u)) r /\ ordered r end.
Lemma insert_ordered : forall t l, ordered l -> ordered (insert_name t l) /\
  (forall u, In u (insert_name t l) <-> u = t \/ (In u l /\ fst u <> fst t)).
Proof.
  intros t l. induction l as [|w l IH]; intro O.
  - cbn. split; [auto|]. intro u. intuition congruence.
  - destruct O as [O1 O2]. cbn [insert_name]. destruct (str_eqb_spec (fst w) (fst t)) as [E|N].
    + split.
      * split; [|auto]. rewrite <- E. exact O1.
      * intro u. cbn. rewrite Forall_forall in O1. split.
        { intros [->|H]; [auto|]. right. split; [auto|]. intro EQ. specialize (O1 _ H). rewrite EQ, E in O1. now apply before_irrefl in O1. }
        { intros [->|[[->|H] NE]]; auto; contradiction. }
    + destruct (str_leb (fst t) (fst w)) eqn:L.
      * apply leb_before in L; [|congruence]. split.
        { split; [|split; auto]. constructor; [auto|]. eapply Forall_impl; [|exact O1]. intros u Hu. eapply before_trans; eauto. }
        { intro u. split.
          - intros [->|H]; [auto|]. right. split; [auto|]. intro EQ. destruct H as [->|H]; [congruence|].
            rewrite Forall_forall in O1. specialize (O1 _ H). rewrite EQ in O1. apply (before_irrefl (fst t)). eapply before_trans; eauto.
          - intros [->|[H NE]]; [now left|now right]. }
      * apply leb_false in L. destruct (IH O2) as [I1 I2]. split.
        { split; [|auto]. apply Forall_forall. intros u Hu. apply I2 in Hu. destruct Hu as [->|[Hu _]]; [auto|]. rewrite Forall_forall in O1. auto. }
        { intro u. cbn. rewrite I2. split.
          - intros [->|[->|[H NE]]]; auto.
          - intros [->|[[->|H] NE]]; auto. }
Qed.
Lemma fold_insert : forall l d, ordered d -> ordered (fold_left (fun d t => insert_name t d) l d) /\
  (forall u, In u (fold_left (fun d t => insert_name t d) l d) <->
     (exists a b, l = a ++ u :: b /\ Forall (fun w => fst w <> fst u) b) \/ (In u d /\ Forall (fun w => fst w <> fst u) l)).
Proof.
  induction l as [|t l IH]; intros d O; cbn [fold_left].
  - split; [auto|]. intro u. split; [intro H; right; auto|]. intros [(a & b & E & _)|[H _]]; [destruct a; discriminate|auto].
  - destruct (insert_ordered t d O) as [I1 I2]. destruct (IH _ I1) as [J1 J2]. split; [auto|]. intro u. rewrite J2. split.
    + intros [(a & b & -> & F)|[H F]].
      * left. exists (t :: a), b. auto.
      * apply I2 in H. destruct H as [->|[H NE]]; [left; exists [], l; auto|]. right. split; [auto|]. constructor; auto.
    + intros [(a & b & E & F)|[H F]].
      * destruct a as [|x a]; cbn in E; inversion E; subst; [right; split; [apply I2; auto|auto]|]. left. eauto.
      * inversion F; subst. right. split; [apply I2; auto|auto].
Qed.

(** ** The station dynamic MIB *)
Lemma status_ok : forall v b rest, stored status_fields v b -> exists s, read_status (b ++ rest) = (s, rest) /\ status_is v s.
Proof.
  intros v b rest S. unfold read_status. rewrite (st_read _ _ subsys_eq _ _ _ _ S) by (eapply st_fresh; [exact subsys_eq|exact S]).
  eexists. split; [reflexivity|]. unfold status_is. cbn.
  rewrite (st_a1 _ _ subsys_eq status_nd _ _ "summary" S), (st_ac _ _ subsys_eq status_nd _ _ "info" S), (st_al _ _ subsys_eq status_nd _ _ "tv" S) by reflexivity.
  split; [reflexivity|]. split; [apply chars_is|]. split; reflexivity.
Qed.
Lemma statuses_ok : forall vs bs, Forall2 (stored status_fields) vs bs -> forall rest,
  exists l, read_statuses (length vs) (concat bs ++ rest) = (l, rest) /\ Forall2 status_is vs l.
Proof.
  intros vs bs H. induction H as [|v b vs bs H1 H2 IH]; intro rest.
  - exists []. split; [reflexivity|constructor].
  - cbn [length concat read_statuses]. rewrite <- app_assoc. destruct (status_ok v b (concat bs ++ rest) H1) as (s & -> & S).
    destruct (IH rest) as (l & -> & F). eexists. split; [reflexivity|]. constructor; auto.
Qed.

Lemma attr_len : forall fs mem n f, find (fun f => str_eqb (fname f) n) fs = Some f -> forall pos,
  exists l, attr_at false fs (offsets pos fs) mem n = Some l /\ zlen l = Z.max 0 (count f).
Proof.
  intros fs mem n f. induction fs as [|g fs IH]; intros H pos; [discriminate|]. cbn [find attr_at offsets] in *.
  destruct (str_eqb (fname g) n).
  - inversion H; subst. eexists. split; [reflexivity|]. unfold elements. rewrite zlen_map.
    assert (L : forall k lo, length (zseq lo k) = k) by (induction k; intro lo; cbn; auto). unfold zlen. rewrite L. lia.
  - apply IH. exact H.
Qed.
Lemma fold_size : forall l a, fold_left Z.mul l a = a * size l.
Proof. induction l as [|x l IH]; intro a; cbn; [lia|]. rewrite IH. unfold size. cbn. lia. Qed.
Lemma am_total : forall fs mem n dims, dims_of fs (cs n) = dims -> dims <> [] -> Forall (fun x => 1 <= x) dims -> exists t, am fs mem n = Ok t.
Proof.
  intros fs mem n dims E NE POS. unfold am. rewrite E. unfold dims_of in E.
  destruct (find (fun f => str_eqb (fname f) (cs n)) fs) as [f|] eqn:EF; [|congruence].
  destruct (attr_len fs mem (cs n) f EF 0) as (l & A & L). unfold al, attr. rewrite A.
  destruct (flat_ok l dims NE POS) as (t & T & _); [|eauto].
  rewrite L. unfold count. rewrite E, fold_size, Z.mul_1_l.
  assert (P : 1 <= size dims) by (clear - POS; induction POS as [|x l H _ IH]; cbn; [lia|]; unfold size in IH; nia). lia.
Qed.
(** Values for examples: zeros, except for the fields in a list. *)
Definition vals (F : list decl) (ov : list (string * list Z)) (n : str) : list Z :=
  match find (fun e => str_eqb (cs (fst e)) n) ov with
  | Some (_, l) => l
  | None => match find (fun d => str_eqb (d_name d) n) F with Some d => repeat 0 (Z.to_nat (d_count d)) | None => [] end
  end.
Definition fitsb (d : decl) (l : list Z) : bool :=
  (zlen l =? d_count d) &&
  (let n := 8 * Z.of_nat (bytes_of (d_type d)) in let lo := if signed false (d_type d) then - 2 ^ (n - 1) else 0 in
   let hi := if signed false (d_type d) then 2 ^ (n - 1) else 2 ^ n in forallb (fun v => (lo <=? v) && (v <? hi)) l).
Lemma fitsb_ok : forall d l, fitsb d l = true -> fits false (d, l).
Proof.
  intros d l H. apply andb_true_iff in H. destruct H as [H1 H2]. apply Z.eqb_eq in H1. split; [exact H1|]. cbv zeta in H2. cbn [fst snd].
  apply Forall_forall. intros x IN. rewrite forallb_forall in H2. specialize (H2 x IN). apply andb_true_iff in H2. destruct H2 as [A B].
  apply Z.leb_le in A. apply Z.ltb_lt in B. unfold in_range. destruct (signed false (d_type d)); lia.
Qed.
Lemma stored_ex : forall F v, forallb (fun d => fitsb d (v (d_name d))) F = true -> stored F v (mk_image false (map (fun d => (d, v (d_name d))) F)).
Proof.
  intros F v H. apply mk_image_ok. apply Forall_forall. intros x IN. apply in_map_iff in IN. destruct IN as (d & <- & IN).
  rewrite forallb_forall in H. apply fitsb_ok. auto.
Qed.
Lemma stored_some : forall F v, forallb (fun d => fitsb d (v (d_name d))) F = true -> exists bs, stored F v bs.
Proof. intros F v H. eexists. now apply stored_ex. Qed.
Lemma find_none_name : forall nm (l : list member), Forall (fun u => fst u <> nm) l -> find (fun t => str_eqb (fst t) nm) l = None.
Proof. intros nm l H. induction H as [|u l NU _ IH]; [reflexivity|]. cbn [find]. destruct (str_eqb_spec (fst u) nm); [contradiction|]. exact IH. Qed.
Lemma find_last_name : forall nm (l : list member) t r, Forall (fun u => fst u <> nm) l -> fst t = nm -> find (fun t => str_eqb (fst t) nm) (l ++ t :: r) = Some t.
Proof.
  intros nm l t r H E. induction H as [|u l NU _ IH]; cbn [find app].
  - now rewrite E, str_eqb_refl.
  - destruct (str_eqb_spec (fst u) nm); [contradiction|]. exact IH.
Qed.

(** ** Antennas *)
Lemma py_nth_in : forall {A} (l : list A) i d, 0 <= i < zlen l -> py_nth l i = Ok (nth (Z.to_nat i) l d).
Proof.
  intros A l i d H. unfold py_nth. destruct (Z.ltb_spec i 0); [lia|]. destruct (Z.ltb_spec i 0); [lia|].
  assert (L : (Z.to_nat i < length l)%nat) by (unfold zlen in H; lia).
  destruct (nth_error l (Z.to_nat i)) eqn:E; [now rewrite (nth_error_nth l _ d E)|]. apply nth_error_None in E. lia.
Qed.
Lemma py_nth_last : forall {A} (l : list A) d, l <> [] -> py_nth l (-1) = Ok (nth (Z.to_nat (zlen l - 1)) l d).
Proof.
  intros A l d NE. unfold py_nth. assert (0 < zlen l) by (destruct l; [now contradiction NE|]; rewrite zlen_cons; pose proof (zlen_nonneg l); lia).
  change (-1 <? 0) with true. cbn iota. replace (-1 + zlen l) with (zlen l - 1) by lia. destruct (Z.ltb_spec (zlen l - 1) 0); [lia|].
  destruct (nth_error l (Z.to_nat (zlen l - 1))) eqn:E; [now rewrite (nth_error_nth l _ d E)|]. apply nth_error_None in E. unfold zlen in *. lia.
Qed.
Lemma cell : forall (c : list (nest Z)) j, Forall (shaped []) c -> 0 <= j < zlen c ->
  exists s, bind (py_nth c j) (fun x => match x with Leaf v => Ok v | Node _ => Raise TypeError end) = Ok s /\ get [j] (Node c) = Some s.
Proof.
  intros c j F H. rewrite (py_nth_in c j (Node [])) by auto. cbn [get bind].
  replace ((0 <=? j) && (j <? zlen c)) with true by (symmetry; apply andb_true_iff; split; [apply Z.leb_le|apply Z.ltb_lt]; lia).
  rewrite Forall_forall in F. destruct (F (nth (Z.to_nat j) c (Node []))) as (s & E); [apply nth_In; unfold zlen in H; lia|].
  rewrite E. exists s. split; reflexivity.
Qed.
Lemma entry_get : forall t n m i j, shaped [n; m] t -> 0 <= j < m ->
  (0 <= i < n -> exists s, ant_entry t i j = Ok s /\ get [i; j] t = Some s) /\
  (i = -1 -> 0 < n -> exists s, ant_entry t i j = Ok s /\ get [n - 1; j] t = Some s) /\
  (n <= i -> ant_entry t i j = Raise IndexError).
Proof.
  intros t n m i j (rows & -> & LN & F) Hj.
  assert (ROW : forall k, 0 <= k < n -> exists c, nth (Z.to_nat k) rows (Node []) = Node c /\ zlen c = m /\ Forall (shaped []) c).
  { intros k Hk. rewrite Forall_forall in F. destruct (F (nth (Z.to_nat k) rows (Node []))) as (c & E & L & FC); [apply nth_In; unfold zlen in LN; lia|]. eauto. }
  assert (GET : forall k c, 0 <= k < n -> nth (Z.to_nat k) rows (Node []) = Node c -> get [k; j] (Node rows) = get [j] (Node c)).
  { intros k c Hk E. cbn [get]. rewrite E. replace ((0 <=? k) && (k <? zlen rows)) with true by (symmetry; apply andb_true_iff; split; [apply Z.leb_le|apply Z.ltb_lt]; lia). reflexivity. }
  split; [|split].
  - intro Hi. destruct (ROW i Hi) as (c & E & L & FC). destruct (cell c j FC) as (s & C1 & C2); [lia|].
    exists s. unfold ant_entry. rewrite (py_nth_in rows i (Node [])) by lia. rewrite E. cbn [bind]. split; [exact C1|]. now rewrite (GET i c).
  - intros -> Hn. destruct (ROW (n - 1)) as (c & E & L & FC); [lia|]. destruct (cell c j FC) as (s & C1 & C2); [lia|].
    exists s. unfold ant_entry. rewrite (py_nth_last rows (Node [])) by (intros ->; rewrite zlen_nil in LN; lia). rewrite LN, E. cbn [bind]. split; [exact C1|].
    rewrite (GET (n - 1) c) by (auto; lia). exact C2.
  - intro Hi. unfold ant_entry, py_nth. pose proof (zlen_nonneg rows). destruct (Z.ltb_spec i 0); [lia|]. destruct (Z.ltb_spec i 0); [lia|].
    destruct (nth_error rows (Z.to_nat i)) eqn:E; [|reflexivity]. assert (X : nth_error rows (Z.to_nat i) <> None) by congruence. apply nth_error_Some in X. unfold zlen in LN. lia.
Qed.
