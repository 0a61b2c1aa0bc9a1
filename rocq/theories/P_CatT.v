(** Source catalogs: the theorems. *)
From Coq Require Import List ZArith Lia Bool.
From Verif Require Import M_Cat S_Cat P_Str P_Cat P_CatA P_CatB P_CatF.
Import ListNotations.
Open Scope Z_scope.

(** A catalog read from any file is a mapping of its primary names: iterating gives each once and as many as len() says; each of them
    can be looked up and is the name of the entry found; every other name that is found is an alias of the entry found, which is
    listed under its own name; and subscription raises nothing but KeyError, exactly for the names that are not "in" the catalog. *)
Lemma C126_mapping_proof : forall F ls (c : catalog F), lwa_parse F ls new_catalog = Ok c \/ psr_parse F ls = Ok c ->
  NoDup (iterate c) /\ cat_len c = Z.of_nat (length (iterate c)) /\
  (forall k, In k (iterate c) -> exists e, getitem c k = Ok e /\ e_name e = k) /\
  (forall k e, getitem c k = Ok e -> (e_name e = k \/ In k (e_alias e)) /\ In (e_name e) (iterate c)) /\
  (forall k, contains_key c k = true <-> exists e, lookup c k = Some e /\ getitem c k = Ok e) /\
  (forall k, contains_key c k = false <-> lookup c k = None /\ getitem c k = Raise KeyError).
Proof.
  intros F ls c H. assert (T : tidy c).
  { destruct H as [H|H]; [eapply tidy_lwa; [|exact H]; apply tidy_new|]. unfold psr_parse in H.
    destruct (psr_lines ls psr_init) as [s|] eqn:E; cbn [bind] in H; [|discriminate]. injection H as <-. eapply tidy_psr; [|exact E]. apply tidy_new. }
  destruct T as (N & A & B). split; [exact N|]. split; [unfold cat_len, iterate; rewrite map_length; reflexivity|]. split; [|split; [|split]].
  - intros k I. unfold iterate in I. apply kget_in in I. unfold getitem, lookup. destruct (kget k (source_map c)) as [e|] eqn:G; [|congruence]. exists e. auto.
  - intros k e. unfold getitem, lookup. destruct (kget k (source_map c)) as [f|] eqn:G.
    + intro E. injection E as <-. pose proof (A k f G) as An. split; [auto|]. rewrite An. apply kget_in. rewrite G. discriminate.
    + destruct (kget k (alias_map c)) as [f|] eqn:G2; [|discriminate]. intro E. injection E as <-. destruct (B k f G2). auto.
  - intro k. unfold contains_key, getitem. destruct (lookup c k) as [e|]; split; intro X; eauto; try discriminate. destruct X as (? & ? & ?). discriminate.
  - intro k. unfold contains_key, getitem. destruct (lookup c k) as [e|]; split; intro X; auto; try discriminate. destruct X as (? & ?). discriminate.
Qed.
Lemma C126_mapping_example_proof : exists c, lwa_parse exF [ex_tau; ex_ori; ex_tau] new_catalog = Ok c /\ cat_len c = 2 /\
  contains_key c (Some [77; 49]) = true /\ ~ In (Some [77; 49]) (iterate c) /\ contains_key c (Some [77; 50]) = false.
Proof. eexists. split; [vm_compute; reflexivity|]. repeat split; try reflexivity. intros [H|[H|[]]]; discriminate. Qed.

(** The catalog read from an LWA catalog file holds the sources the file describes: a name leads to the last source with this
    primary name or else to the last one with this alias, with the position and sign written in the file. *)
Lemma C127_lwa_file_proof : forall F ls ss, lwa_file (F := F) ls ss -> exists c, lwa_parse F ls new_catalog = Ok c /\ holds c ss.
Proof. intros F ls ss H. exists (build ss new_catalog). split; [apply lwa_build; exact H|apply build_holds]. Qed.
Lemma C127_lwa_file_example_proof : lwa_file (F := exF) [[35; 32; 97]; ex_tau; [32; 10]; ex_ori] [src_tau; src_ori].
Proof.
  apply lf_skip; [left; eexists; reflexivity|]. apply lf_src; [|apply lf_skip; [right; split; [discriminate|repeat constructor]|apply lf_src; [|constructor]]].
  - exists [84; 97; 117; 65], 5, 34, [51; 49; 46; 57; 53], [51; 49; 46; 57; 53], 32, false, 22, 0, [53; 50; 46; 49], [53; 50; 46; 49], [[51; 67; 49; 52; 52]; [77; 49]], [].
    repeat match goal with |- exists _, _ => fail 1 | |- _ /\ _ => split | |- _ \/ _ => right; split; [left; reflexivity|reflexivity] | |- _ = _ => reflexivity | |- _ <> _ => discriminate
      | |- Forall _ _ => constructor | |- no_space _ => unfold no_space | |- all_space _ => constructor | |- (_ <= _)%nat => cbn; lia | |- coords_ok _ => unfold coords_ok, time_ok, angle_ok; cbn; repeat split; lia end; lia.
  - exists [79; 114; 105; 65], 5, 35, [49; 55; 46; 51; 48], [49; 55; 46; 51; 48], 45, true, 5, 23, [50; 56; 46; 48], [50; 56; 46; 48], [], [].
    repeat match goal with |- _ /\ _ => split | |- _ \/ _ => left; split; reflexivity | |- _ = _ => reflexivity | |- _ <> _ => discriminate
      | |- Forall _ _ => constructor | |- no_space _ => unfold no_space | |- all_space _ => constructor | |- (_ <= _)%nat => cbn; lia | |- coords_ok _ => unfold coords_ok, time_ok, angle_ok; cbn; repeat split; lia end; lia.
Qed.

(** The catalog read from a PSRCAT file holds the pulsars of its records, in whatever order a record gives its values: under the B
    name with the J name as alias, or under the J name; a record without a usable position is left out, and so is what follows the
    last end-of-record line. *)
Lemma C128_psr_file_proof : forall F ls ss, psr_file (F := F) ls ss -> exists c, psr_parse F ls = Ok c /\ holds c (kept ss).
Proof.
  intros F ls ss H. exists (build (kept ss) new_catalog). split; [|apply build_holds]. unfold psr_parse.
  destruct (psr_build F ls ss H None new_catalog) as (s & E & C). change psr_init with (mkPS (F := F) None None None None false None new_catalog). rewrite E. cbn [bind]. rewrite C. reflexivity.
Qed.
Lemma C128_psr_file_example_proof : psr_file (F := exF) ([ex_p0; ex_dec; ex_j; ex_ra; ex_b] ++ ex_end :: [ex_j; ex_ra; ex_dec2] ++ ex_end :: [ex_p0]) [Some src_psr; None].
Proof.
  assert (SB : says KB [66; 49] ex_b).
  { exists [32], [10]. repeat match goal with |- _ /\ _ => split | |- all_space _ => repeat constructor | |- no_space _ => repeat constructor | |- _ <> _ => discriminate | |- _ \/ _ => right; exists 10, []; split; reflexivity | |- _ => reflexivity end. }
  assert (SJ : says KJ [74; 49] ex_j).
  { exists [32], [32; 120; 10]. repeat match goal with |- _ /\ _ => split | |- all_space _ => repeat constructor | |- no_space _ => repeat constructor | |- _ <> _ => discriminate | |- _ \/ _ => right; exists 32, [120; 10]; split; reflexivity | |- _ => reflexivity end. }
  assert (D05 : digit_text [48; 53] 5) by (apply (dt_more [48] 0 5); [apply (dt_one 0)|]; lia).
  assert (D01 : digit_text [48; 49] 1) by (apply (dt_more [48] 0 1); [apply (dt_one 0)|]; lia).
  assert (D34 : digit_text [51; 52] 34) by (apply (dt_more [51] 3 4); [apply (dt_one 3)|]; lia).
  assert (D30 : digit_text [51; 48] 30) by (apply (dt_more [51] 3 0); [apply (dt_one 3)|]; lia).
  assert (SR : ra_line (F := exF) (5, 34, [51]) ex_ra).
  { exists [48; 53; 58; 51; 52; 58; 51]. split.
    - exists [48; 53], [51; 52], (Some [51]). split; [reflexivity|]. split; [exact D05|]. split; [exact D34|]. split; [reflexivity|]. split; [repeat constructor|]. cbn. lia.
    - exists [32], [10]. repeat match goal with |- _ /\ _ => split | |- all_space _ => repeat constructor | |- no_space _ => repeat constructor | |- _ <> _ => discriminate | |- _ \/ _ => right; exists 10, []; split; reflexivity | |- _ => reflexivity end. }
  assert (SD : dec_line (F := exF) (DecAt (F := exF) true 1 30 [48]) ex_dec).
  { exists [45; 48; 49; 58; 51; 48]. split.
    - exists [45], [48; 49], [51; 48], None. split; [reflexivity|]. split; [left; split; reflexivity|]. split; [exact D01|]. split; [exact D30|]. reflexivity.
    - exists [32], [10]. repeat match goal with |- _ /\ _ => split | |- all_space _ => repeat constructor | |- no_space _ => repeat constructor | |- _ <> _ => discriminate | |- _ \/ _ => right; exists 10, []; split; reflexivity | |- _ => reflexivity end. }
  assert (SD2 : dec_line (F := exF) DecOdd ex_dec2).
  { exists [50; 50]. split; [discriminate|]. split.
    - split; [repeat constructor|]. left. cbn. lia.
    - exists [32], [10]. repeat match goal with |- _ /\ _ => split | |- all_space _ => repeat constructor | |- no_space _ => repeat constructor | |- _ <> _ => discriminate | |- _ \/ _ => right; exists 10, []; split; reflexivity | |- _ => reflexivity end. }
  assert (SO : other_line ex_p0) by (repeat split; intros (r & H); discriminate H).
  apply (pf_rec [ex_p0; ex_dec; ex_j; ex_ra; ex_b] ex_psr (Some src_psr) ex_end).
  - split; [|split; [|split; [|split]]].
    + constructor; [left; exact SO|]. constructor; [right; right; right; right; eexists; split; [reflexivity|exact SD]|]. constructor; [right; right; left; eexists; split; [reflexivity|exact SJ]|].
      constructor; [right; right; right; left; eexists; split; [reflexivity|exact SR]|]. constructor; [right; left; eexists; split; [reflexivity|exact SB]|constructor].
    + intros v E. injection E as <-. apply Exists_exists. exists ex_b. split; [cbn; auto 9|exact SB].
    + intros v E. injection E as <-. apply Exists_exists. exists ex_j. split; [cbn; auto 9|exact SJ].
    + intros v E. injection E as <-. apply Exists_exists. exists ex_ra. split; [cbn; auto 9|exact SR].
    + intros v E. injection E as <-. apply Exists_exists. exists ex_dec. split; [cbn; auto 9|exact SD].
  - exact (ps_b (F := exF) [66; 49] (Some [74; 49]) 5 34 [51] true 1 30 [48] ltac:(cbn; unfold time_ok, angle_ok; repeat split; lia)).
  - exists [45; 45; 10]. reflexivity.
  - apply (pf_rec [ex_j; ex_ra; ex_dec2] ex_psr2 None ex_end).
    + split; [|split; [|split; [|split]]].
      * constructor; [right; right; left; eexists; split; [reflexivity|exact SJ]|]. constructor; [right; right; right; left; eexists; split; [reflexivity|exact SR]|].
        constructor; [right; right; right; right; eexists; split; [reflexivity|exact SD2]|constructor].
      * intros v E. discriminate E.
      * intros v E. injection E as <-. apply Exists_exists. exists ex_j. split; [cbn; auto 9|exact SJ].
      * intros v E. injection E as <-. apply Exists_exists. exists ex_ra. split; [cbn; auto 9|exact SR].
      * intros v E. injection E as <-. apply Exists_exists. exists ex_dec2. split; [cbn; auto 9|exact SD2].
    + exact (ps_odd (F := exF) None (Some [74; 49]) (Some (5, 34, [51]))).
    + exists [45; 45; 10]. reflexivity.
    + apply (pf_end [ex_p0] (mkPsr None None None None)). split; [constructor; [left; exact SO|constructor]|]. repeat split; intros v E; discriminate E.
Qed.

(** A line of an LWA catalog file that is long enough to hold the sign of the declination and has a field that is not a number
    stops the reading with a RuntimeError.  Missing: shorter lines and numbers out of range, see below. *)
Lemma C129_lwa_reported_partial_proof : forall F pre ss l post, lwa_file (F := F) pre ss -> lwa_unreadable F l -> lwa_parse F (pre ++ l :: post) new_catalog = Raise RuntimeError.
Proof.
  intros F pre ss l post H (L & NS & B). rewrite lwa_app, (lwa_build F pre ss H). cbn [bind lwa_parse].
  assert (E : lwa_line F l = Raise RuntimeError); [|rewrite E; reflexivity].
  unfold lwa_line. assert (S1 : starts_with [35] l = false).
  { apply not_begins. intros (r & ->). apply NS. left. exists r. reflexivity. }
  assert (S2 : isspace l = false).
  { destruct (isspace l) eqn:E; [|reflexivity]. destruct NS. right. destruct l as [|c l]; [cbn in L; lia|]. split; [discriminate|]. unfold isspace in E. apply Forall_forall. rewrite forallb_forall in E. exact E. }
  rewrite S1, S2. cbn [orb]. change columns with slice in B. destruct (nth_error l 21) as [sg|] eqn:N; [|apply nth_error_None in N; lia].
  destruct (parse_int (slice 9 11 l)); [|reflexivity]. destruct (parse_int (slice 12 14 l)); [|reflexivity]. destruct (to_float F (slice 15 20 l)); [|reflexivity].
  destruct (parse_int (slice 22 24 l)); [|reflexivity]. destruct (parse_int (slice 25 27 l)); [|reflexivity]. destruct (to_float F (slice 28 32 l)); [|reflexivity].
  destruct B as [B|[B|[B|[B|[B|B]]]]]; discriminate.
Qed.
Lemma C129_lwa_reported_partial_example_proof : lwa_unreadable exF (firstn 22 ex_ori ++ [120; 120] ++ skipn 24 ex_ori).
Proof.
  split; [cbn; lia|]. split; [|right; right; right; left; reflexivity]. intros [(r & H)|(_ & H)]; [discriminate H|]. apply Forall_inv in H. discriminate H.
Qed.
(** A line cut off after the right ascension is an IndexError, and a right ascension of 24 hours a ValueError: neither is the
    RuntimeError that names the file and the line. *)
Lemma C129_lwa_reported_refuted_proof : exists l1 l2, lwa_parse exF [ex_tau; l1] new_catalog = Raise IndexError /\ lwa_parse exF [ex_tau; l2] new_catalog = Raise ValueError /\
  l1 = firstn 20 ex_ori ++ [10] /\ l2 = firstn 9 ex_ori ++ [50; 52] ++ skipn 11 ex_ori.
Proof. eexists. eexists. split; [|split; [|split; reflexivity]]; vm_compute; reflexivity. Qed.
(** A right ascension that is not written in two or three parts stops the reading of a PSRCAT file with a NameError (the
    unbound raHours) when it is the first one, for whatever follows; a declination like that only leaves its pulsar out. *)
Lemma C129_psr_first_refuted_proof : forall F pre t l post, Forall other_line pre -> odd_text t -> says KRA t l -> psr_parse F (pre ++ l :: post) = Raise NameError.
Proof.
  intros F pre t l post H O S. unfold psr_parse.
  assert (E : forall ls (s : psrst F), Forall other_line ls -> psr_lines ls s = Ok s).
  { intros ls s Hl. revert s. induction Hl as [|x ls (A & B & C & D & E) _ IH]; intro s; [reflexivity|]. cbn [psr_lines]. unfold psr_line.
    change kw_psrb with KB. change kw_psrj with KJ. change kw_raj with KRA. change kw_decj with KDEC. change kw_end with KEND.
    rewrite (not_begins KB), (not_begins KJ), (not_begins KRA), (not_begins KDEC), (not_begins KEND) by assumption. apply IH. }
  rewrite psr_app, E by exact H. cbn [bind psr_lines].
  assert (R : psr_line l (psr_init (F := F)) = Raise NameError); [|rewrite R; reflexivity].
  assert (W : psr_raj l (psr_init (F := F)) = Raise NameError).
  { unfold psr_raj. rewrite (says_word KRA t l) by (try exact S; try discriminate; apply kw_space). cbn [bind]. rewrite split_odd by exact O. reflexivity. }
  destruct (says_starts _ _ _ S) as (r & ->). exact W.
Qed.
Lemma C129_psr_first_refuted_example_proof : odd_text [53] /\ says KRA [53] ex_ra1 /\ Forall other_line [ex_p0] /\
  (exists c, psr_parse exF [ex_ra; ex_dec; ex_end; ex_j; ex_ra1; ex_dec; ex_end] = Ok c /\ cat_len c = 1).
Proof.
  split; [split; [repeat constructor|left; cbn; lia]|]. split; [|split].
  - exists [32], [10]. repeat match goal with |- _ /\ _ => split | |- all_space _ => repeat constructor | |- no_space _ => repeat constructor | |- _ <> _ => discriminate | |- _ \/ _ => right; exists 10, []; split; reflexivity | |- _ => reflexivity end.
  - constructor; [|constructor]. repeat split; intros (r & H); discriminate H.
  - eexists. split; vm_compute; reflexivity.
Qed.
(** One right ascension with a field that is not a number and the whole PSRCAT file cannot be read: a ValueError, wherever it is. *)
Lemma C129_psr_abort_refuted_proof : exists ls l post c, psr_parse exF ls = Ok c /\ cat_len c = 1 /\ psr_parse exF (ls ++ l :: post) = Raise ValueError /\ l = ex_rax /\ post = [ex_dec; ex_end].
Proof. exists [ex_j; ex_ra; ex_dec; ex_end], ex_rax, [ex_dec; ex_end]. eexists. split; [vm_compute; reflexivity|]. split; [reflexivity|]. split; [vm_compute; reflexivity|]. auto. Qed.
(** The pulsar of a last record without the end-of-record line is lost. *)
Lemma C129_psr_last_refuted_proof : exists c, psr_parse exF [ex_j; ex_ra; ex_dec] = Ok c /\ cat_len c = 0 /\ exists c2, psr_parse exF [ex_j; ex_ra; ex_dec; ex_end] = Ok c2 /\ cat_len c2 = 1.
Proof. eexists. split; [vm_compute; reflexivity|]. split; [reflexivity|]. eexists. split; vm_compute; reflexivity. Qed.

(** In any session with the factory, whichever constructions fail: a request fails with ValueError exactly for an unknown name
    (or with what the construction raised), every successful request for a name gives one and the same instance, different names
    give different ones, and a catalog is never constructed again after it has been constructed once. *)
Lemma C130_factory_proof : forall outcome ns os f, session outcome ns new_factory = (os, f) ->
  map fst os = ns /\
  (forall n r, In (n, r) os -> ~ In n FACTORY_NAMES -> r = Raise ValueError) /\
  (forall n e, In (n, Raise e) os -> In n FACTORY_NAMES -> exists j, nth_error (attempts f) j = Some n /\ outcome j = Some e) /\
  (forall n m i j, In (n, Ok i) os -> In (m, Ok j) os -> (n = m <-> i = j)) /\
  (forall n i, In (n, Ok i) os -> nth_error (attempts f) i = Some n /\ outcome i = None /\ forall j, (i < j)%nat -> nth_error (attempts f) j <> Some n).
Proof.
  intros outcome ns os f H. assert (S0 : sound outcome new_factory) by (intros n i E; discriminate E).
  destruct (session_sound outcome ns new_factory os f S0 H) as (S & _ & _ & M & O & R). split; [exact M|]. split; [|split; [|split]].
  - intros n r I N. destruct r as [i|e]; [destruct (O n i I); contradiction|]. destruct (R n e I) as [(_ & ->)|(Y & _)]; [reflexivity|contradiction].
  - intros n e I N. destruct (R n e I) as [(Y & _)|(_ & j & J)]; [contradiction|eauto].
  - intros n m i j I J. destruct (O n i I) as (_ & Fi). destruct (O m j J) as (_ & Fj). split; [intros ->; congruence|]. intros ->.
    destruct (S n j Fi) as (_ & A & _). destruct (S m j Fj) as (_ & B & _). congruence.
  - intros n i I. destruct (O n i I) as (_ & Fi). destruct (S n i Fi) as (A & B & C). auto.
Qed.
Lemma C130_factory_example_proof : session (fun i => if Nat.eqb i 1 then Some RuntimeError else None) [[76; 87; 65]; [80; 83; 82]; [76]; [76; 87; 65]; [80; 83; 82]] new_factory =
  ([([76; 87; 65], Ok 0%nat); ([80; 83; 82], Raise RuntimeError); ([76], Raise ValueError); ([76; 87; 65], Ok 0%nat); ([80; 83; 82], Ok 2%nat)],
   mkFac [([80; 83; 82], 2%nat); ([76; 87; 65], 0%nat)] [[76; 87; 65]; [80; 83; 82]; [80; 83; 82]]).
Proof. reflexivity. Qed.
(** A name that was asked for without success is constructed anew at the next request. *)
Lemma C130_retry_proof : forall outcome ns os f n, session outcome ns new_factory = (os, f) -> In n FACTORY_NAMES -> (forall i, ~ In (n, Ok i) os) ->
  forall r f', get_catalog outcome n f = (r, f') -> attempts f' = attempts f ++ [n] /\ r = match outcome (length (attempts f)) with Some e => Raise e | None => Ok (length (attempts f)) end.
Proof.
  intros outcome ns os f n H I N r f' G.
  assert (X : forall ns f0 os f, session outcome ns f0 = (os, f) -> (forall i, ~ In (n, Ok i) os) -> find_instance n (instances f0) = None -> find_instance n (instances f) = None).
  { clear. intros ns. induction ns as [|m ns IH]; intros f0 os f H N E; cbn [session] in H; [injection H as _ <-; exact E|].
    destruct (get_catalog outcome m f0) as [o f1] eqn:G. destruct (session outcome ns f1) as [os1 f2] eqn:Q. injection H as <- <-.
    apply (IH f1 os1 f2 Q); [intros i Hi; apply (N i); right; exact Hi|]. unfold get_catalog in G.
    destruct (negb (existsb (str_eqb m) class_names)); [injection G as _ <-; exact E|]. destruct (find_instance m (instances f0)) as [i|]; [injection G as _ <-; exact E|].
    cbv zeta in G. destruct (outcome (length (attempts f0))); injection G as <- <-; cbn [instances]; [exact E|]. cbn [find_instance].
    destruct (str_eqb_spec m n) as [->|]; [|exact E]. destruct (N (length (attempts f0))). left. reflexivity. }
  assert (F0 : find_instance n (instances f) = None) by (apply (X ns new_factory os f H N); reflexivity).
  unfold get_catalog in G. assert (K : existsb (str_eqb n) class_names = true) by (apply existsb_exists; exists n; split; [exact I|apply str_eqb_refl]).
  rewrite K, F0 in G. cbn [negb] in G. cbv zeta in G. destruct (outcome (length (attempts f))); injection G as <- <-; auto.
Qed.
Lemma C130_retry_example_proof : In [80; 83; 82] FACTORY_NAMES /\ fst (get_catalog (fun i => if Nat.eqb i 0 then Some OSError else None) [80; 83; 82] (snd (session (fun i => if Nat.eqb i 0 then Some OSError else None) [[80; 83; 82]] new_factory))) = Ok 1%nat.
Proof. split; [right; left; reflexivity|reflexivity]. Qed.
