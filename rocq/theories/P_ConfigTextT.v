(** Theorems about the configuration file. *)
From Coq Require Import List ZArith Bool Lia QArith Ascii String.
From Verif Require Import M_Str M_Config S_Config P_Str P_Config P_ConfigText.
Import ListNotations.
Open Scope Z_scope.

Lemma edge_app : forall a b, b <> [] -> edge_ok (rev b) -> edge_ok (rev (a ++ b)).
Proof. intros a b N E. rewrite rev_app_distr. destruct (rev b) as [|x r] eqn:R; [exfalso; apply N; rewrite <- (rev_involutive b), R; auto|exact E]. Qed.

(** Writing the configuration and loading it gives the same value for every name, with nothing pending and no
    version change, for every configuration that has all default parameters, names of the form section.item, and
    values that their own text denotes.  [show_float] and [parse_float] are repr() and float() of CPython. *)
Lemma C37_round_trip_partial_proof : forall show_float parse_float version defaults c m, one_line version ->
  NoDup (map fst (params c)) -> (forall n, In n (map fst defaults) -> In n (map fst (params c))) ->
  (forall n p, In (n, p) (params c) -> good_name n /\ good_help p /\ good_value show_float parse_float (option_map p_value (dget n defaults)) (p_value p)) ->
  exists t c', to_text show_float version c = Some t /\ load parse_float version defaults (Some (m, t)) = inr c' /\
    (forall n, current c' n = current c n) /\ pend c' = [] /\ pch c' = false /\ vch c' = false /\ loaded c' = m.
Proof.
  intros show_float parse_float version defaults c m V N D G.
  assert (G' : Forall (fun x => good_name (fst x) /\ good_help (snd x) /\ good_value show_float parse_float (option_map p_value (dget (fst x) defaults)) (p_value (snd x))) (params c)).
  { apply Forall_forall. intros [n p] I. apply G. auto. }
  assert (GN : Forall (fun x => good_name (fst x)) (params c)) by (eapply Forall_impl; [|exact G']; cbn; tauto).
  unfold to_text. rewrite (body_unl show_float (params c) None GN).
  set (ls := [s_title; [35; 32] ++ s_version ++ [32] ++ version] ++ body_lines show_float None (params c)).
  assert (E : s_title ++ [10] ++ [35; 32] ++ s_version ++ [32] ++ version ++ [10] ++ unl (body_lines show_float None (params c)) = unl ls).
  { unfold ls. rewrite unl_app. unfold unl at 2. cbn [flat_map]. rewrite <- !app_assoc. reflexivity. }
  assert (NL : forall c0, c0 = 10 \/ c0 = 13 -> Forall (fun l => ~ In c0 l) ls).
  { intros c0 C0. unfold ls. apply Forall_app. split; [|eapply body_no; eauto]. destruct V as (V1 & V2 & _).
    repeat constructor; [cbn; lia|]. cbn. intro I. repeat (destruct I as [I|I]; [lia|]). destruct C0; subst; auto. }
  exists (unl ls). rewrite E. unfold load. rewrite newlines_id.
  2: { specialize (NL 13 (or_intror eq_refl)). rewrite Forall_forall in NL. intro I. unfold unl in I. apply in_flat_map in I. destruct I as (l & L & I). apply in_app_or in I. destruct I as [I|[I|[]]]; [eapply NL; eauto|discriminate]. }
  rewrite split_unl by (apply NL; auto). rewrite load_app.
  assert (HV : exists u, strip ([35; 32] ++ s_version ++ [32] ++ version) = [35; 32] ++ s_version ++ u /\ strip u = version).
  { destruct version as [|v0 version]; [exists []; split; reflexivity|]. exists (32 :: v0 :: version). split.
    - apply strip_id. pose proof (one_line_trimmed _ V) as [_ TV]. split; [reflexivity|].
      apply (edge_app ([35; 32] ++ s_version ++ [32]) (v0 :: version)); [discriminate|exact TV].
    - rewrite <- (app_nil_r (32 :: v0 :: version)). change (32 :: v0 :: version) with ([32] ++ v0 :: version). rewrite <- app_assoc.
      rewrite strip_pad by (repeat constructor). apply strip_id. apply one_line_trimmed. auto. }
  destruct HV as (u & HV & SV).
  assert (H0 : exists sec', load_lines parse_float version ls (None, defaults, false) = inr (sec', fold_left upd (params c) defaults, false)).
  { unfold ls. rewrite load_app. cbn [load_lines].
    assert (L1 : load_line parse_float version s_title (None, defaults, false) = inr (None, defaults, false)) by (apply comment_line; reflexivity).
    assert (L2 : load_line parse_float version ([35; 32] ++ s_version ++ [32] ++ version) (None, defaults, false) = inr (None, defaults, false)).
    { unfold load_line. rewrite HV.
      change (@inr exn lstate (None, defaults, if str_eqb (strip u) version then false else true) = inr (None, defaults, false)). rewrite SV, str_eqb_refl. reflexivity. }
    rewrite L1, L2. eapply body_load; eauto. }
  destruct H0 as (sec' & H0). rewrite H0. cbn [load_lines]. change (load_line parse_float version [] (sec', fold_left upd (params c) defaults, false)) with (@inr exn lstate (sec', fold_left upd (params c) defaults, false)). cbn iota beta.
  eexists. split; [reflexivity|]. split; [reflexivity|]. split; [|repeat split].
  intro n. unfold current. cbn [params]. rewrite upd_current by auto.
  destruct (dget n (params c)) as [p|] eqn:P; cbn [option_map].
  - apply dget_some_in in P. destruct (G n p P) as (_ & _ & GV). destruct (p_value p); auto.
  - destruct (dget n defaults) as [q|] eqn:Q; auto. exfalso. apply dget_none in P. apply P. apply D. apply dget_in. congruence.
Qed.

Definition bad_line (l : str) : Prop := 3 <= Z.of_nat (List.length (strip l)) /\ hd 0 (strip l) <> 35 /\ hd 0 (strip l) <> 91 /\ ~ In 61 (strip l).
(** Loading fails iff the file has a line of three or more characters that is neither a comment nor a section and has
    no '='; the error is ValueError, and it leaves the import of lsl.config. *)
Lemma C37_load_fails_iff_proof : forall parse_float version defaults m t e,
  load parse_float version defaults (Some (m, t)) = inl e <-> e = ValueError /\ exists l, In l (split 10 (newlines t)) /\ bad_line l.
Proof.
  intros parse_float version defaults m t e. unfold load. generalize (split 10 (newlines t)) as ls.
  assert (K : forall ls st, (exists e, load_lines parse_float version ls st = inl e) <-> exists l, In l ls /\ bad_line l).
  { induction ls as [|l ls IH]; intro st; cbn [load_lines].
    - split; [intros (x & H); discriminate|intros (x & [] & _)].
    - destruct (load_line parse_float version l st) as [x|st1] eqn:L.
      + split; [|eauto]. intros _. exists l. split; [left; auto|]. destruct st as [[sec ps] ver]. unfold load_line in L. unfold bad_line. destruct (strip l) as [|a [|b [|d r]]]; try discriminate.
        destruct (Z.eqb_spec a 35); [destruct (after s_version _); discriminate|]. destruct (Z.eqb_spec a 91); [discriminate|]. destruct (split1 61 (a :: b :: d :: r)) as [[u w]|] eqn:S; [discriminate|].
        split; [cbn [List.length]; lia|]. split; auto. split; auto. intro I. apply in_split in I. destruct I as (u & w & I).
        clear -S I. revert S. rewrite I. clear. induction u as [|y u IH]; cbn; [discriminate|]. destruct (y =? 61); [discriminate|]. destruct (split1 61 (u ++ 61 :: w)) as [[? ?]|]; [discriminate|auto].
      + rewrite IH. split; intros (k & I & B); exists k; split; auto; [right; auto|]. destruct I as [<-|I]; auto. exfalso.
        destruct st as [[sec ps] ver]. unfold load_line in L. unfold bad_line in B. destruct (strip l) as [|a [|b [|d r]]]; cbn [List.length] in B; try lia.
        destruct B as (_ & B1 & B2 & B3). cbn [hd] in B1, B2. destruct (Z.eqb_spec a 35); [congruence|]. destruct (Z.eqb_spec a 91); [congruence|]. rewrite split1_none in L by auto. discriminate. }
  assert (KE : forall ls st x, load_lines parse_float version ls st = inl x -> x = ValueError).
  { induction ls as [|l ls IH]; intros st x H; cbn [load_lines] in H; [discriminate|]. destruct (load_line parse_float version l st) as [y|st1] eqn:L; [|eauto]. inversion H; subst.
    destruct st as [[sec ps] ver]. unfold load_line in L. destruct (strip l) as [|a [|b [|d r]]]; try discriminate.
    destruct (a =? 35); [destruct (after s_version _); discriminate|]. destruct (a =? 91); [discriminate|]. destruct (split1 61 (a :: b :: d :: r)) as [[u w]|]; [discriminate|]. inversion L. auto. }
  intro ls. specialize (K ls (None, defaults, false)). specialize (KE ls (None, defaults, false)). destruct (load_lines parse_float version ls (None, defaults, false)) as [x|[[sec ps] ver]].
  - rewrite <- K. split; [intro H; inversion H; subst; split; eauto|]. intros [-> _]. f_equal. apply KE. auto.
  - rewrite <- K. split; [discriminate|]. intros [_ (y & H)]. discriminate.
Qed.

(** A missing file: the defaults, and a save is due. *)
Lemma C37_no_file_proof : forall parse_float version defaults, load parse_float version defaults None = inr (mkC defaults [] true true 0).
Proof. reflexivity. Qed.

(** *** examples *)
Definition txt (s : string) : str := map (fun c => Z.of_N (N_of_ascii c)) (list_ascii_of_string s).
Definition nofloat : str -> option Q := fun _ => None.
Definition noshow : Q -> str := fun _ => [].
(** Some of the parameters of config.py (42-146). *)
Definition ex_defaults : list (str * param) :=
  [ (txt "observing.observer_name", mkP VNone (Some [txt "Observer name for auto-filling Observer classes"]) true);
    (txt "ldp.drx_buffer_size", mkP (VInt 20) (Some [txt "DRX ring buffer size in timestamps"]) false);
    (txt "astro.leapsec_url", mkP (VStr (txt "https://hpiers.obspm.fr/iers/bul/bulc/Leap_Second.dat")) (Some [txt "URL for accessing leap second information"]) false);
    (txt "ionosphere.igs_mirror", mkP (VStr (txt "ftp://gssc.esa.int/gnss/products/ionex/")) (Some [txt "mirror URL for accessing the IGS data products"]) true);
    (txt "telemetry.enabled", mkP (VBool true) (Some [txt "whether or not LSL telemetry reporting is enabled"]) false) ].
Definition ex_with (n : str) (v : value) : cfg := snd (set n v (mkC ex_defaults [] false false 0)).
Definition reload (c : cfg) : option (exn + cfg) := match to_text noshow (txt "3.0.0") c with Some t => Some (load nofloat (txt "3.0.0") ex_defaults (Some (5, t))) | None => None end.
Definition after_reload (n : str) (c : cfg) : option (option value) := match reload c with Some (inr c') => Some (current c' n) | _ => None end.
Lemma C37_round_trip_example_proof :
  let c := snd (set (txt "ldp.drx_buffer_size") (VInt (-7)) (snd (set (txt "observing.observer_name") (VStr (txt "J. Doe = x")) (mkC ex_defaults [] false false 0)))) in
  after_reload (txt "ldp.drx_buffer_size") c = Some (Some (VInt (-7))) /\ after_reload (txt "observing.observer_name") c = Some (Some (VStr (txt "J. Doe = x"))) /\ (forall n p, In (n, p) (params c) -> good_help p /\ good_value noshow nofloat (option_map p_value (dget n ex_defaults)) (p_value p)).
Proof.
  cbn zeta. split; [reflexivity|]. split; [reflexivity|]. intros n p I.
  assert (OL : forall s, forallb (fun c => negb (c =? 10) && negb (c =? 13)) s = true -> is_space (hd 0 s) = false -> is_space (last s 0) = false -> one_line s).
  { intros s A B C. rewrite forallb_forall in A. split; [|split; [|split]].
    - intro X. apply A in X. discriminate.
    - intro X. apply A in X. discriminate.
    - intros c r ->. exact B.
    - intros c r ->. rewrite last_last in C. exact C. }
  cbn in I. repeat (destruct I as [I|I]; [inversion I; subst; clear I; (split; [cbn; intros l [<-|[]]; repeat split; try (intro X; repeat (destruct X as [X|X]; [discriminate|]); destruct X); reflexivity|]);
    cbn -[txt]; try exact I; try (repeat split; try discriminate; try (apply OL; reflexivity); try reflexivity)|]). destruct I.
Qed.
Lemma C37_good_names_example_proof : good_name (txt "ldp.drx_buffer_size") /\ good_name (txt "observing.observer_name") /\ good_name (txt "ionosphere.igs_mirror").
Proof.
  assert (OL : forall s, forallb (fun c => negb (c =? 10) && negb (c =? 13)) s = true -> is_space (hd 0 s) = false -> is_space (last s 0) = false -> one_line s).
  { intros s A B C. rewrite forallb_forall in A. split; [|split; [|split]].
    - intro X. apply A in X. discriminate.
    - intro X. apply A in X. discriminate.
    - intros c r ->. exact B.
    - intros c r ->. rewrite last_last in C. exact C. }
  assert (NI : forall c s, forallb (fun x => negb (x =? c)) s = true -> ~ In c s).
  { intros c s A X. rewrite forallb_forall in A. apply A in X. rewrite Z.eqb_refl in X. discriminate. }
  assert (K : forall sec item, forallb (fun x => negb (x =? 46)) item = true -> one_line sec -> forallb (fun x => negb (x =? 91)) sec = true -> forallb (fun x => negb (x =? 93)) sec = true ->
    one_line item -> forallb (fun x => negb (x =? 61)) item = true -> forallb (fun x => negb (x =? 58)) item = true -> (exists c r, item = c :: r /\ c <> 35 /\ c <> 91) -> good_name (sec ++ 46 :: item)).
  { intros. exists sec, item. repeat (split; [auto|]). auto. }
  split; [|split].
  - apply (K (txt "ldp") (txt "drx_buffer_size")); try reflexivity; try (apply OL; reflexivity). eexists; eexists; split; [reflexivity|]. split; discriminate.
  - apply (K (txt "observing") (txt "observer_name")); try reflexivity; try (apply OL; reflexivity). eexists; eexists; split; [reflexivity|]. split; discriminate.
  - apply (K (txt "ionosphere") (txt "igs_mirror")); try reflexivity; try (apply OL; reflexivity). eexists; eexists; split; [reflexivity|]. split; discriminate.
Qed.
Lemma C37_load_fails_example_proof : bad_line (txt "oops") /\ load nofloat (txt "1") ex_defaults (Some (5, txt "# x
oops
")) = inl ValueError.
Proof. split; [|reflexivity]. unfold bad_line. repeat split; try discriminate; try reflexivity. intro X. cbn in X. repeat (destruct X as [X|X]; [discriminate|]). destruct X. Qed.

(** None set for a parameter that has a default is lost: the next session has the default again. *)
Lemma C37_none_refuted_proof : current (ex_with (txt "ionosphere.igs_mirror") VNone) (txt "ionosphere.igs_mirror") = Some VNone /\ after_reload (txt "ionosphere.igs_mirror") (ex_with (txt "ionosphere.igs_mirror") VNone) = Some (Some (VStr (txt "ftp://gssc.esa.int/gnss/products/ionex/"))).
Proof. split; reflexivity. Qed.
(** Strings that look like something else come back as something else: '0123' as the integer 123, 'True' as a
    boolean, '' as None; spaces at the ends are lost. *)
Lemma C37_string_refuted_proof :
  let n := txt "observing.observer_name" in
  let back s := after_reload n (ex_with n (VStr s)) in
  back (txt "0123") = Some (Some (VInt 123)) /\ back (txt "True") = Some (Some (VBool true)) /\ back [] = Some (Some VNone) /\ back (txt " a ") = Some (Some (VStr (txt "a"))).
Proof. cbn zeta. repeat split; reflexivity. Qed.
(** A string with a newline makes a file that cannot be loaded, or sets another parameter. *)
Lemma C37_newline_refuted_proof :
  let n := txt "observing.observer_name" in
  reload (ex_with n (VStr (txt "a
bcd"))) = Some (inl ValueError) /\
  after_reload (txt "observing.x") (ex_with n (VStr (txt "a
x = 5"))) = Some (Some (VInt 5)).
Proof. cbn zeta. split; reflexivity. Qed.
(** A setting before the first section is accepted by the load but makes every later save fail: the name has no dot. *)
Lemma C37_no_section_refuted_proof : exists c, load nofloat (txt "3.0.0") ex_defaults (Some (5, txt "abc = 1")) = inr c /\ current c (txt "abc") = Some (VInt 1) /\ to_text noshow (txt "3.0.0") c = None.
Proof. eexists. split; [reflexivity|]. split; reflexivity. Qed.
