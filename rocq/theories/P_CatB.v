(** Proofs about the PSRCAT file. *)
From Coq Require Import List ZArith Lia Bool.
From Verif Require Import M_Cat S_Cat P_Str P_Cat P_CatA.
Import ListNotations.
Open Scope Z_scope.

Lemma starts_begins : forall k l, starts_with k l = true <-> begins k l.
Proof.
  intros k. induction k as [|x k IH]; intro l; cbn [starts_with].
  - split; [exists l; reflexivity|reflexivity].
  - destruct l as [|y l]; [split; [discriminate|intros (r & H); discriminate]|]. rewrite andb_true_iff, Z.eqb_eq, IH. split.
    + intros (-> & r & ->). exists r. reflexivity.
    + intros (r & H). injection H as -> ->. split; [reflexivity|exists r; reflexivity].
Qed.
Lemma not_begins : forall k l, ~ begins k l -> starts_with k l = false.
Proof. intros k l H. destruct (starts_with k l) eqn:E; [|reflexivity]. apply starts_begins in E. contradiction. Qed.
Lemma says_word : forall k v l, no_space k -> k <> [] -> says k v l -> word1 l = Ok v.
Proof.
  intros k v l Hk Nk (g & r & -> & G & Ng & Nv & Sv & R). unfold word1. destruct g as [|c g]; [congruence|]. inversion G as [|y z Hc Hg]; subst.
  cbn [app]. rewrite words_word by assumption. cbn [nth_error]. rewrite words_skip by exact Hg.
  destruct R as [->|(c' & r' & -> & Hr)]; [rewrite app_nil_r, words_last by assumption|rewrite words_word by assumption]; reflexivity.
Qed.
Lemma kw_space : no_space KB /\ no_space KJ /\ no_space KRA /\ no_space KDEC.
Proof. repeat split; repeat constructor. Qed.
Lemma says_starts : forall k v l, says k v l -> exists r, l = k ++ r.
Proof. intros k v l (g & r & -> & _). eexists. reflexivity. Qed.

(** The state in the course of a record: what has been seen of its four values. *)
Section Rec.
Context {F : floats}.
Variable u : pulsar F.
Definition t_ra : option (hms F) := match u_ra u with Some (h, m, x) => match mk_hms h m x with Ok a => Some a | Raise _ => None end | None => None end.
Definition t_rabad : bool := match u_ra u with Some (h, m, x) => match mk_hms h m x with Ok a => false | Raise _ => true end | None => false end.
Definition t_dec : option (dms F) := match u_dec u with Some (DecAt n d m x) => match mk_dms n d m x with Ok a => Some a | Raise _ => None end | _ => None end.
Definition t_decbad : bool := match u_dec u with Some (DecAt n d m x) => match mk_dms n d m x with Ok a => false | Raise _ => true end | Some DecOdd => true | None => false end.
Definition St (sb sj sr sd : bool) (last : option (Z * Z * flt F)) (c : catalog F) : psrst F :=
  mkPS (if sb then u_b u else None) (if sj then u_j u else None) (if sr then t_ra else None) (if sd then t_dec else None)
       ((sr && t_rabad) || (sd && t_decbad)) last c.

Lemma seconds_as : forall xs (x : flt F), seconds_text (Some xs) x -> as_float F xs = Ok x.
Proof. intros xs x (H & _). unfold as_float. rewrite H. reflexivity. Qed.
Lemma as_int_dt : forall t n, digit_text t n -> as_int t = Ok n.
Proof. intros t n H. unfold as_int. rewrite (dt_parse t n H). reflexivity. Qed.
Lemma split_ra : forall ht mt xs, ~ In 58 ht -> ~ In 58 mt -> (match xs with Some xs => ~ In 58 xs | None => True end) ->
  split 58 (with_seconds (ht ++ [58] ++ mt) xs) = match xs with Some xs => [ht; mt; xs] | None => [ht; mt] end.
Proof.
  intros ht mt xs A B C. destruct xs as [xs|]; cbn [with_seconds app].
  - rewrite <- app_assoc. cbn [app]. rewrite split_app, split_app, split_none by assumption. reflexivity.
  - rewrite split_app, split_none by assumption. reflexivity.
Qed.
Lemma split_odd : forall t, odd_text t -> forall A (a : str -> str -> str -> A) (b : str -> str -> A) c,
  match split 58 t with [x; y; z] => a x y z | [x; y] => b x y | _ => c end = c.
Proof.
  intros t (_ & [N|(p & q & r & s & -> & Np & Nq & Nr)]) A a b c.
  - rewrite split_none by exact N. reflexivity.
  - cbn [app]. rewrite !split_app by assumption. destruct (split 58 s) eqn:E; [destruct (split_nonempty 58 s E)|reflexivity].
Qed.
Lemma line_ra : forall l r sb sj sr sd last c, u_ra u = Some r -> ra_line r l ->
  psr_raj l (St sb sj sr sd last c) = Ok (St sb sj true sd (Some r) c).
Proof.
  intros l [[h m] x] sb sj sr sd last c E (t & (ht & mt & xs & -> & Hh & Hm & Hx) & Sa). unfold psr_raj.
  rewrite (says_word KRA _ l) by (try exact Sa; try discriminate; apply kw_space). cbn [bind].
  rewrite split_ra; [|eapply dt_no; [exact Hh|reflexivity]|eapply dt_no; [exact Hm|reflexivity]|destruct xs; [apply Hx|exact Logic.I]].
  assert (G : forall (bad : bool), bad = p_bad (St sb sj sr sd last c) ->
    match mk_hms h m x with
    | Ok ra => Ok (mkPS (p_b (St sb sj sr sd last c)) (p_j (St sb sj sr sd last c)) (Some ra) (p_dec (St sb sj sr sd last c)) bad (Some (h, m, x)) (p_cat (St sb sj sr sd last c)))
    | Raise _ => Ok (mkPS (p_b (St sb sj sr sd last c)) (p_j (St sb sj sr sd last c)) (p_ra (St sb sj sr sd last c)) (p_dec (St sb sj sr sd last c)) true (Some (h, m, x)) (p_cat (St sb sj sr sd last c)))
    end = Ok (St sb sj true sd (Some (h, m, x)) c)).
  { intros bad ->. unfold St, t_ra, t_rabad. rewrite E. cbn [p_b p_j p_ra p_dec p_bad p_cat].
    destruct (mk_hms h m x); cbn [andb orb]; [rewrite andb_false_r; reflexivity|]. destruct sr; reflexivity. }
  destruct xs as [xs|].
  - rewrite (as_int_dt _ _ Hh), (as_int_dt _ _ Hm). cbn [bind]. rewrite (seconds_as xs x Hx). cbn [bind]. apply G. reflexivity.
  - rewrite (as_int_dt _ _ Hh), (as_int_dt _ _ Hm). cbn [bind]. cbn [seconds_text] in Hx. subst x. apply G. reflexivity.
Qed.
Lemma dt_head : forall t n, digit_text t n -> starts_with [45] t = false.
Proof.
  intros t n H. apply not_begins. intros (r & ->). apply (dt_no _ n 45 H); [reflexivity|left; reflexivity].
Qed.
Lemma dec_fields_ok : forall sg dt mt n d m (x : flt F) r, (sg = [45] /\ n = true \/ (sg = [] \/ sg = [43]) /\ n = false) -> digit_text dt d -> digit_text mt m -> r = Ok x ->
  dec_fields (sg ++ dt) mt r = Ok (n, d, m, x).
Proof.
  intros sg dt mt n d m x r Sg Hd Hm ->. unfold dec_fields. destruct Sg as [(-> & ->)|([-> | ->] & ->)]; cbn [app].
  - change (starts_with [45] (45 :: dt)) with true. cbn [skipn]. rewrite (as_int_dt _ _ Hd). cbn [bind]. rewrite (as_int_dt _ _ Hm). reflexivity.
  - rewrite (dt_head dt d Hd). cbv iota. rewrite (as_int_dt _ _ Hd). cbn [bind]. rewrite (as_int_dt _ _ Hm). reflexivity.
  - change (starts_with [45] (43 :: dt)) with false. cbv iota. unfold as_int at 1. rewrite (dt_plus dt d Hd). cbn [bind]. rewrite (as_int_dt _ _ Hm). reflexivity.
Qed.
Lemma line_dec : forall l d sb sj sr sd last c, u_dec u = Some d -> dec_line d l ->
  psr_decj l (St sb sj sr sd last c) = Ok (St sb sj sr true last c).
Proof.
  intros l d sb sj sr sd last c E H. unfold psr_decj. destruct d as [n d m x|].
  - destruct H as (t & (sg & dt & mt & xs & -> & Sg & Hd & Hm & Hx) & Sa).
    rewrite (says_word KDEC _ l) by (try exact Sa; try discriminate; apply kw_space). cbn [bind]. cbv zeta.
    replace (sg ++ dt ++ [58] ++ mt) with ((sg ++ dt) ++ [58] ++ mt) by (rewrite <- app_assoc; reflexivity).
    rewrite split_ra; [| |eapply dt_no; [exact Hm|reflexivity]|destruct xs; [apply Hx|exact Logic.I]].
    2:{ intro I. apply in_app_or in I. destruct I as [I|I]; [|eapply dt_no; [exact Hd| |exact I]; reflexivity].
        destruct Sg as [(-> & _)|([-> | ->] & _)]; cbn [In] in I; lia. }
    assert (G : forall r, r = Ok (n, d, m, x) ->
      bind r (fun v : bool * Z * Z * flt F => let '(n, d, m, x) := v in
        match mk_dms n d m x with
        | Ok dec => Ok (mkPS (p_b (St sb sj sr sd last c)) (p_j (St sb sj sr sd last c)) (p_ra (St sb sj sr sd last c)) (Some dec) (p_bad (St sb sj sr sd last c)) (p_last (St sb sj sr sd last c)) (p_cat (St sb sj sr sd last c)))
        | Raise _ => Ok (mkPS (p_b (St sb sj sr sd last c)) (p_j (St sb sj sr sd last c)) (p_ra (St sb sj sr sd last c)) (p_dec (St sb sj sr sd last c)) true (p_last (St sb sj sr sd last c)) (p_cat (St sb sj sr sd last c)))
        end) = Ok (St sb sj sr true last c)).
    { intros r ->. cbn [bind]. unfold St, t_dec, t_decbad. rewrite E. cbn [p_b p_j p_ra p_dec p_bad p_cat p_last].
      destruct (mk_dms n d m x); cbn [andb orb]; [rewrite andb_false_r; reflexivity|]. rewrite orb_true_r. destruct sd; reflexivity. }
    destruct xs as [xs|]; apply G; apply dec_fields_ok; try assumption; [apply seconds_as; exact Hx|cbn [seconds_text] in Hx; subst x; reflexivity].
  - destruct H as (t & _ & Ot & Sa). rewrite (says_word KDEC _ l) by (try exact Sa; try discriminate; apply kw_space). cbn [bind]. cbv zeta.
    rewrite split_odd by exact Ot. unfold St, t_dec, t_decbad. rewrite E. cbn [p_b p_j p_ra p_dec p_bad p_cat p_last andb]. rewrite orb_true_r. destruct sd; reflexivity.
Qed.
Lemma line_step : forall l sb sj sr sd last c, line_of u l -> exists last',
  psr_line l (St sb sj sr sd last c) = Ok (St (sb || starts_with KB l) (sj || starts_with KJ l) (sr || starts_with KRA l) (sd || starts_with KDEC l) last' c).
Proof.
  intros l sb sj sr sd last c H. unfold psr_line.
  change kw_psrb with KB. change kw_psrj with KJ. change kw_raj with KRA. change kw_decj with KDEC. change kw_end with KEND.
  destruct H as [(A & B & C & D & E)|[(v & E & H)|[(v & E & H)|[(r & E & H)|(d & E & H)]]]].
  - rewrite (not_begins KB), (not_begins KJ), (not_begins KRA), (not_begins KDEC), (not_begins KEND) by assumption. rewrite !orb_false_r. eexists. reflexivity.
  - assert (W := says_word KB v l (proj1 kw_space) ltac:(discriminate) H). destruct (says_starts _ _ _ H) as (r & ->).
    change (starts_with KB (KB ++ r)) with true. change (starts_with KJ (KB ++ r)) with false. change (starts_with KRA (KB ++ r)) with false. change (starts_with KDEC (KB ++ r)) with false.
    cbv iota. rewrite W. cbn [bind]. rewrite !orb_false_r, orb_true_r. exists last. unfold St. rewrite E. reflexivity.
  - assert (W := says_word KJ v l (proj1 (proj2 kw_space)) ltac:(discriminate) H). destruct (says_starts _ _ _ H) as (r & ->).
    change (starts_with KB (KJ ++ r)) with false. change (starts_with KJ (KJ ++ r)) with true. change (starts_with KRA (KJ ++ r)) with false. change (starts_with KDEC (KJ ++ r)) with false.
    cbv iota. rewrite W. cbn [bind]. rewrite !orb_false_r, orb_true_r. exists last. unfold St. rewrite E. reflexivity.
  - rewrite (line_ra l r) by assumption. destruct r as [[h m] x]. destruct H as (t & _ & H). destruct (says_starts _ _ _ H) as (q & ->).
    change (starts_with KB (KRA ++ q)) with false. change (starts_with KJ (KRA ++ q)) with false. change (starts_with KRA (KRA ++ q)) with true. change (starts_with KDEC (KRA ++ q)) with false.
    cbv iota. rewrite !orb_false_r, orb_true_r. eexists. reflexivity.
  - rewrite (line_dec l d) by assumption. assert (S : exists t, says KDEC t l) by (destruct d; [destruct H as (t & _ & H)|destruct H as (t & _ & _ & H)]; exists t; exact H).
    destruct S as (t & S). destruct (says_starts _ _ _ S) as (q & ->).
    change (starts_with KB (KDEC ++ q)) with false. change (starts_with KJ (KDEC ++ q)) with false. change (starts_with KRA (KDEC ++ q)) with false. change (starts_with KDEC (KDEC ++ q)) with true.
    cbv iota. rewrite !orb_false_r, orb_true_r. eexists. reflexivity.
Qed.
Lemma block_steps : forall b, Forall (line_of u) b -> forall sb sj sr sd last c, exists last',
  psr_lines b (St sb sj sr sd last c) = Ok (St (sb || existsb (starts_with KB) b) (sj || existsb (starts_with KJ) b) (sr || existsb (starts_with KRA) b) (sd || existsb (starts_with KDEC) b) last' c).
Proof.
  intros b H. induction H as [|l b Hl _ IH]; intros sb sj sr sd last c; cbn [psr_lines existsb].
  - rewrite !orb_false_r. eexists. reflexivity.
  - destruct (line_step l sb sj sr sd last c Hl) as (la & E). rewrite E. cbn [bind].
    destruct (IH (sb || starts_with KB l) (sj || starts_with KJ l) (sr || starts_with KRA l) (sd || starts_with KDEC l) la c) as (lb & E2).
    exists lb. rewrite E2. rewrite !orb_assoc. reflexivity.
Qed.
Lemma block_all : forall b last c, describes b u -> exists last', psr_lines b (St false false false false last c) = Ok (St true true true true last' c).
Proof.
  intros b last c (H & HB & HJ & HR & HD). destruct (block_steps b H false false false false last c) as (la & E). exists la. rewrite E. cbn [orb]. apply (f_equal Ok).
  assert (X : forall k (P : str -> Prop), (forall l, P l -> begins k l) -> Exists P b -> existsb (starts_with k) b = true).
  { intros k P Q Ex. apply Exists_exists in Ex. destruct Ex as (l & I & Pl). apply existsb_exists. exists l. split; [exact I|]. apply starts_begins. auto. }
  unfold St.
  assert (EB : (if existsb (starts_with KB) b return key then u_b u else None) = u_b u).
  { destruct (u_b u) as [v|]; [|destruct (existsb (starts_with KB) b); reflexivity]. rewrite (X KB (says KB v)); [reflexivity|intros l; apply says_starts|auto]. }
  assert (EJ : (if existsb (starts_with KJ) b return key then u_j u else None) = u_j u).
  { destruct (u_j u) as [v|]; [|destruct (existsb (starts_with KJ) b); reflexivity]. rewrite (X KJ (says KJ v)); [reflexivity|intros l; apply says_starts|auto]. }
  rewrite EB, EJ.
  assert (ER : u_ra u = None \/ existsb (starts_with KRA) b = true).
  { destruct (u_ra u) as [r|]; [|auto]. right. apply (X KRA (ra_line r)); [|auto]. intros l Hl. destruct r as [[h m] x]. destruct Hl as (t & _ & S). eapply says_starts; exact S. }
  assert (ED : u_dec u = None \/ existsb (starts_with KDEC) b = true).
  { destruct (u_dec u) as [r|]; [|auto]. right. apply (X KDEC (dec_line r)); [|auto]. intros l Hl. destruct r; [destruct Hl as (t & _ & S)|destruct Hl as (t & _ & _ & S)]; eapply says_starts; exact S. }
  unfold t_ra, t_rabad, t_dec, t_decbad. destruct ER as [-> | ->]; destruct ED as [-> | ->];
    destruct (existsb (starts_with KRA) b); destruct (existsb (starts_with KDEC) b); cbn [andb orb]; rewrite ?andb_false_r, ?orb_false_r; reflexivity.
Qed.
End Rec.

Lemma St_start : forall F (u : pulsar F) last c, St u false false false false last c = mkPS None None None None false last c.
Proof. reflexivity. Qed.
Definition opt_add {F} (c : catalog F) (o : option (source F)) : catalog F := match o with Some s => add_entry c (src_entry s) | None => c end.
Lemma end_step : forall F (u : pulsar F) o last c, pulsar_source u o -> (forall j, u_j u = Some j -> no_space j) ->
  psr_end (St u true true true true last c) = Ok (mkPS None None None None false last (opt_add c o)).
Proof.
  intros F u o last c H NJ. unfold psr_end, St. cbn [p_b p_j p_ra p_dec p_bad p_last p_cat].
  assert (Z1 : forall b' (x : res (catalog F)) y, (let '(name, alias) := (b' : key * key) in bind (x : res (catalog F)) (fun c => Ok (mkPS None None None None false last c))) = Ok (mkPS (F := F) None None None None false last y) <-> x = Ok y).
  { intros [a b] x y. destruct x; cbn [bind]; split; intro E; [injection E as <-; reflexivity|injection E as <-; reflexivity|discriminate|discriminate]. }
  destruct H as [b j h m x n d dm dx (T & A & P)|j h m x n d dm dx (T & A & P)|b j d|b j r|b j r|b j h m x d T|b j r n d m x A];
    unfold t_ra, t_rabad, t_dec, t_decbad; cbn [u_b u_j u_ra u_dec andb orb opt_add] in *.
  - rewrite mk_hms_ok, mk_dms_ok by assumption. cbn [andb orb]. unfold equ_posn. cbn [h_hours h_minutes h_seconds d_neg d_degrees d_minutes d_seconds]. rewrite P. cbn [bind].
    destruct j as [j|]; cbn [src_entry s_at s_name s_also map]; [|reflexivity].
    rewrite <- (app_nil_r j) at 1. rewrite rstrip_spaces by (auto; constructor). reflexivity.
  - rewrite mk_hms_ok, mk_dms_ok by assumption. cbn [andb orb]. unfold equ_posn. cbn [h_hours h_minutes h_seconds d_neg d_degrees d_minutes d_seconds]. rewrite P. cbn [bind].
    destruct j; reflexivity.
  - destruct b; reflexivity.
  - destruct r as [[[h m] x]|]; [destruct (mk_hms h m x)|]; destruct b; reflexivity.
  - destruct r as [[[h m] x]|]; [destruct (mk_hms h m x)|]; destruct b; reflexivity.
  - rewrite mk_hms_bad by exact T. destruct b; reflexivity.
  - rewrite mk_dms_bad by exact A. destruct r as [[[h0 m0] x0]|]; [destruct (mk_hms h0 m0 x0)|]; destruct b; reflexivity.
Qed.
Lemma psr_app : forall F ls r (s : psrst F), psr_lines (ls ++ r) s = bind (psr_lines ls s) (psr_lines r).
Proof.
  intros F ls r. induction ls as [|l ls IH]; intro s; [reflexivity|]. cbn [app psr_lines]. destruct (psr_line l s); cbn [bind]; [apply IH|reflexivity].
Qed.
Lemma psr_end_line : forall F e (s : psrst F), begins KEND e -> psr_line e s = psr_end s.
Proof. intros F e s (r & ->). reflexivity. Qed.
Lemma desc_j : forall F b (u : pulsar F) j, describes b u -> u_j u = Some j -> no_space j.
Proof.
  intros F b u j (_ & _ & H & _) E. specialize (H j E). apply Exists_exists in H. destruct H as (l & _ & g & r & _ & _ & _ & _ & S & _). exact S.
Qed.
Lemma psr_build : forall F ls ss, psr_file (F := F) ls ss -> forall last c, exists s', psr_lines ls (mkPS None None None None false last c) = Ok s' /\ p_cat s' = build (kept ss) c.
Proof.
  intros F ls ss H. induction H as [tail u D|b u o e r ss D P E _ IH]; intros last c.
  - rewrite <- (St_start F u). destruct (block_all u tail last c D) as (la & ->). eexists. split; [reflexivity|]. reflexivity.
  - rewrite psr_app, <- (St_start F u). destruct (block_all u b last c D) as (la & ->). cbn [bind psr_lines]. rewrite psr_end_line by exact E.
    rewrite (end_step F u o la c P) by (intros j Hj; eapply desc_j; eauto). cbn [bind]. destruct (IH la (opt_add c o)) as (s' & -> & C).
    exists s'. split; [reflexivity|]. rewrite C. destruct o; reflexivity.
Qed.
