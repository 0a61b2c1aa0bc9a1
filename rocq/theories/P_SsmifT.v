From Coq Require Import Ascii String List ZArith Bool Lia Permutation Sorted.
From Verif Require Import M_Py M_Str M_Sdf P_Str M_Ssmif S_Ssmif P_Ssmif P_SsmifI P_SsmifJ P_SsmifB P_SsmifC.
Import ListNotations.
Open Scope Z_scope.

(** Every well-formed, complete and consistently wired station description file is read, and the station is the one it describes: its
    antennas are exactly 1 to twice the number of stands, in the order of the digitizers, each with the stand, position, orientation, status,
    front end and port, cable, ARX channel, board, digitizer and input connector the file gives for it (the last value given, or the default),
    and without what the file does not give it; location, gain and name follow the file. *)
Lemma C108_station_read_proof : forall is_float lines es, file_says is_float lines es -> well_formed [] es = true -> complete es = true -> wired es ->
  exists st, parse_ssmif is_float lines = Ok st /\
    NoDup (map a_id (t_ants st)) /\ (forall k, In k (map a_id (t_ants st)) <-> 1 <= k <= 2 * num es "N_STD") /\
    StronglySorted (fun a b => a_dig a <= a_dig b) (t_ants st) /\
    (forall a, In a (t_ants st) -> antenna_is es a) /\
    t_idn st = text_at es "STATION_ID" [] /\ t_lat st = text_at es "GEO_N" [] /\ t_lon st = text_at es "GEO_E" [] /\ t_elv st = text_at es "GEO_EL" [] /\
    t_gain st = int_at es "DRX_GAIN" [] /\
    (forall k n, In (k, n) station_names -> text_at es "STATION_ID" [] = tx k -> t_name st = tx n) /\
    ((forall k n, In (k, n) station_names -> text_at es "STATION_ID" [] <> tx k) -> t_name st = tx "New LWA Station").
Proof.
  intros isf lines es FS WF CM WI. destruct (run_file_inv isf lines es FS [] env0 inv0 WF) as (v & RV & IV). cbn [app] in IV.
  destruct (build_ok es v IV CM WI) as (m1 & m2 & m3 & name & iface & _ & _ & _ & B & NM).
  assert (PM : Permutation (map a_id (sort_dig (map (Fin es m1 m2 m3) (R (2 * ns es))))) (R (2 * ns es))).
  { rewrite sort_perm, map_map. rewrite <- (map_id (R (2 * ns es))) at 2. erewrite map_ext; [reflexivity|]. intro k. unfold Fin. rewrite !hits_keep by reflexivity. reflexivity. }
  eexists. unfold parse_ssmif. rewrite RV. cbn [bind]. split; [exact B|]. cbn [t_ants t_idn t_lat t_lon t_elv t_gain t_name].
  split; [eapply Permutation_NoDup; [symmetry; exact PM|apply R_NoDup]|].
  split. { intro k. etransitivity; [|apply R_In]. split; apply Permutation_in; [exact PM|symmetry; exact PM]. }
  split; [apply sort_sorted|].
  split.
  { intros a AI. apply (Permutation_in _ (sort_perm _)) in AI. apply in_map_iff in AI as (k & <- & KI). apply R_In in KI.
    assert (ID : a_id (Fin es m1 m2 m3 k) = k) by (unfold Fin; rewrite !hits_keep by reflexivity; reflexivity).
    set (x1 := hits (set_fee 1) (fl1 es) k (A0_ es k)). set (x2 := hits (set_fee 2) (fl2 es) k x1). set (x3 := hits set_cable (cl es m1 m2 m3) k x2). set (x4 := hits set_arx (xl es) k x3).
    assert (FN : Fin es m1 m2 m3 k = hits set_snap (sl es) k x4) by reflexivity.
    assert (XF : a_fee (Fin es m1 m2 m3 k) = a_fee x2 /\ a_port (Fin es m1 m2 m3 k) = a_port x2).
    { rewrite FN. unfold x4, x3. rewrite !hits_keep by reflexivity. auto. }
    assert (XC : a_cable (Fin es m1 m2 m3 k) = a_cable x3) by (rewrite FN; unfold x4; rewrite !hits_keep by reflexivity; reflexivity).
    assert (XX : a_arx (Fin es m1 m2 m3 k) = a_arx x4) by (rewrite FN; rewrite !hits_keep by reflexivity; reflexivity).
    assert (FI1 : forall x, In (x, k) (fl1 es) -> exists f, is_in f (num es "N_FEE") /\ x = F_ es f /\ fee_ant es 1 f = k).
    { intros x X. unfold fl1 in X. apply in_map_iff in X as (f & X & FI). injection X as <- X. apply in_R in FI. exists f. repeat split; try apply FI. exact X. }
    assert (FI2 : forall x, In (x, k) (fl2 es) -> exists f, is_in f (num es "N_FEE") /\ x = F_ es f /\ fee_ant es 2 f = k).
    { intros x X. unfold fl2 in X. apply in_map_iff in X as (f & X & FI). injection X as <- X. apply in_R in FI. exists f. repeat split; try apply FI. exact X. }
    assert (FO1 : forall f, is_in f (num es "N_FEE") -> fee_ant es 1 f = k -> In (F_ es f, k) (fl1 es)).
    { intros f FI E. unfold fl1. apply in_map_iff. exists f. split; [f_equal; exact E|now apply in_R]. }
    assert (FO2 : forall f, is_in f (num es "N_FEE") -> fee_ant es 2 f = k -> In (F_ es f, k) (fl2 es)).
    { intros f FI E. unfold fl2. apply in_map_iff. exists f. split; [f_equal; exact E|now apply in_R]. }
    assert (CI : forall x, In (x, k) (cl es m1 m2 m3) -> exists r, is_in r (num es "N_RPD") /\ x = C_ es m1 m2 m3 r /\ int_at es "RPD_ANT" [r] = k).
    { intros x X. unfold cl in X. apply in_map_iff in X as (f & X & FI). injection X as <- X. apply in_R in FI. exists f. repeat split; try apply FI. exact X. }
    assert (CO : forall r, is_in r (num es "N_RPD") -> int_at es "RPD_ANT" [r] = k -> In (C_ es m1 m2 m3 r, k) (cl es m1 m2 m3)).
    { intros f FI E. unfold cl. apply in_map_iff. exists f. split; [f_equal; exact E|now apply in_R]. }
    assert (AI : forall x, In (x, k) (xl es) -> exists b c, is_in b (num es "N_ARB") /\ is_in c (num es "N_ARBCH") /\ x = X_ es b c /\ int_at es "ARB_ANT" [b; c] = k /\ k <> 0 /\ k <= 512).
    { intros x X. unfold xl in X. apply in_flat_map in X as (b & BI & X). apply in_flat_map in X as (c & CC & X). cbv zeta in X. destruct (_ || _) eqn:E; [destruct X|]. destruct X as [X|[]]. injection X as <- X.
      apply orb_false_elim in E as [E1 E2]. apply Z.eqb_neq in E1. apply Z.ltb_ge in E2. rewrite X in E1, E2. exists b, c. rewrite <- !in_R. auto 10. }
    assert (AO : forall b c, is_in b (num es "N_ARB") -> is_in c (num es "N_ARBCH") -> int_at es "ARB_ANT" [b; c] = k -> k <= 512 -> In (X_ es b c, k) (xl es)).
    { intros b c BI CC E K5. unfold xl. apply in_flat_map. exists b. split; [now apply in_R|]. apply in_flat_map. exists c. split; [now apply in_R|]. cbv zeta. rewrite E.
      replace (k =? 0) with false by (symmetry; apply Z.eqb_neq; lia). replace (512 <? k) with false by (symmetry; apply Z.ltb_ge; lia). now left. }
    assert (SI : forall x, In (x, k) (sl es) -> exists b c, is_in b (num es "N_SNAP") /\ is_in c (num es "N_SNAPCH") /\ x = (b, ((b - 1) * nk es + c, text_at es "SNAP_INR" [b; c])) /\ int_at es "SNAP_ANT" [b; c] = k).
    { intros x X. unfold sl in X. apply in_flat_map in X as (b & BI & X). apply in_map_iff in X as (c & X & CC). injection X as <- X. exists b, c. rewrite <- !in_R. auto 10. }
    assert (SO : forall b c, is_in b (num es "N_SNAP") -> is_in c (num es "N_SNAPCH") -> int_at es "SNAP_ANT" [b; c] = k -> In ((b, ((b - 1) * nk es + c, text_at es "SNAP_INR" [b; c])), k) (sl es)).
    { intros b c BI CC E. unfold sl. apply in_flat_map. exists b. split; [now apply in_R|]. apply in_map_iff. exists c. split; [now rewrite E|now apply in_R]. }
    constructor; rewrite ?ID.
    - unfold on_stand. unfold Fin. rewrite !hits_keep by reflexivity. repeat split.
    - unfold Fin. rewrite !hits_keep by reflexivity. reflexivity.
    - unfold Fin. rewrite !hits_keep by reflexivity. reflexivity.
    - unfold Fin. rewrite !hits_keep by reflexivity. reflexivity.
    - unfold Fin. rewrite !hits_keep by reflexivity. reflexivity.
    - intros p f P FI E. unfold has_fee. destruct XF as [-> ->]. destruct P as [->| ->].
      + unfold x2. destruct (hits_cases _ (set_fee 2) (fl2 es) k x1) as [[_ ->]|(y & b & Y & _)].
        * unfold x1. destruct (hits_cases _ (set_fee 1) (fl1 es) k (A0_ es k)) as [[N _]|(y & b & Y & ->)]; [exfalso; exact (N _ (FO1 f FI E))|].
          destruct (FI1 y Y) as (g & GI & -> & EG). destruct (w_fee1 _ WI 1 f 1 g (or_introl eq_refl) (or_introl eq_refl) FI GI) as [_ <-]; [congruence|]. split; [reflexivity|]. eexists. split; [reflexivity|]. repeat split.
        * exfalso. destruct (FI2 y Y) as (g & GI & -> & EG). destruct (w_fee1 _ WI 1 f 2 g (or_introl eq_refl) (or_intror eq_refl) FI GI) as [X _]; [congruence|discriminate].
      + unfold x2. destruct (hits_cases _ (set_fee 2) (fl2 es) k x1) as [[N _]|(y & b & Y & ->)]; [exfalso; exact (N _ (FO2 f FI E))|].
        destruct (FI2 y Y) as (g & GI & -> & EG). destruct (w_fee1 _ WI 2 f 2 g (or_intror eq_refl) (or_intror eq_refl) FI GI) as [_ <-]; [congruence|]. split; [reflexivity|]. eexists. split; [reflexivity|]. repeat split.
    - intro N. destruct XF as [-> _]. unfold x2. destruct (hits_cases _ (set_fee 2) (fl2 es) k x1) as [[_ ->]|(y & b & Y & _)].
      + unfold x1. destruct (hits_cases _ (set_fee 1) (fl1 es) k (A0_ es k)) as [[_ ->]|(y & b & Y & _)]; [reflexivity|]. destruct (FI1 y Y) as (g & GI & _ & EG). exfalso. exact (N 1 g (or_introl eq_refl) GI EG).
      + destruct (FI2 y Y) as (g & GI & _ & EG). exfalso. exact (N 2 g (or_intror eq_refl) GI EG).
    - intros r RI E. unfold has_cable. rewrite XC. unfold x3. destruct (hits_cases _ set_cable (cl es m1 m2 m3) k x2) as [[N _]|(y & b & Y & ->)]; [exfalso; exact (N _ (CO r RI E))|].
      destruct (CI y Y) as (g & GI & -> & EG). rewrite <- (w_rpd1 _ WI r g RI GI) by congruence. eexists. split; [reflexivity|]. unfold C_. destruct (_ <=? _); repeat split.
    - intro N. rewrite XC. unfold x3. destruct (hits_cases _ set_cable (cl es m1 m2 m3) k x2) as [[_ ->]|(y & b & Y & _)]; [unfold x2, x1; rewrite !hits_keep by reflexivity; reflexivity|].
      destruct (CI y Y) as (g & GI & _ & EG). exfalso. exact (N g GI EG).
    - intros b c BI CC E K5. unfold has_arx. rewrite XX. unfold x4. destruct (hits_cases _ set_arx (xl es) k x3) as [[N _]|(y & a & Y & ->)]; [exfalso; exact (N _ (AO b c BI CC E K5))|].
      destruct (AI y Y) as (b' & c' & BI' & CC' & -> & E' & K0 & _). destruct (w_arb1 _ WI b c b' c' BI CC BI' CC') as [<- <-]; [congruence|lia|]. eexists. split; [reflexivity|].
      destruct (w_arb _ WI b c BI CC) as [Z0|[(_ & _ & (z & PZ))|Z1]]; [congruence| |lia]. unfold X_, T1_. cbn [x_id x_chan x_asp x_in x_out]. rewrite PZ. repeat split.
    - intro N. rewrite XX. unfold x4. destruct (hits_cases _ set_arx (xl es) k x3) as [[_ ->]|(y & a & Y & _)]; [unfold x3, x2, x1; rewrite !hits_keep by reflexivity; reflexivity|].
      destruct (AI y Y) as (b' & c' & BI' & CC' & _ & E' & _). exfalso. exact (N b' c' BI' CC' E').
    - intros b c BI CC E. unfold has_digitizer. rewrite FN. destruct (hits_cases _ set_snap (sl es) k x4) as [[N _]|(y & a & Y & ->)]; [exfalso; exact (N _ (SO b c BI CC E))|].
      destruct (SI y Y) as (b' & c' & BI' & CC' & -> & E'). destruct (w_snap1 _ WI b c b' c' BI CC BI' CC') as [<- <-]; [congruence|]. repeat split.
    - intro N. rewrite FN. destruct (hits_cases _ set_snap (sl es) k x4) as [[_ ->]|(y & a & Y & _)]; [unfold x4, x3, x2, x1; rewrite !hits_keep by reflexivity; repeat split|].
      destruct (SI y Y) as (b' & c' & BI' & CC' & _ & E'). exfalso. exact (N b' c' BI' CC' E'). }
  repeat (split; [reflexivity|]). split.
  - intros k n KN E. rewrite E in NM. unfold station_names in KN. destruct KN as [X|[X|[X|[X|[]]]]]; injection X as <- <-; cbn in NM; injection NM as -> _; reflexivity.
  - intro N. assert (F : find_name (text_at es "STATION_ID" []) id2name = None).
    { unfold id2name. cbn [map find_name fst snd]. repeat (match goal with |- context [find_name] => cbn [find_name fst snd] | |- context [str_eqb ?a ?b] => destruct (str_eqb_spec a b) as [X|X]; [exfalso; eapply N; [|exact X]; in_list|clear X] end). reflexivity. }
    rewrite F in NM. now injection NM as -> _.
Qed.

Definition ex_items : list item :=
  [("FORMAT_VERSION", [], NInt 10, "10"); ("STATION_ID", [], NText (tx "SV"), "SV"); ("GEO_N", [], NFloat (tx "34.35"), "34.35"); ("GEO_E", [], NFloat (tx "-106.9"), "-106.9"); ("GEO_EL", [], NFloat (tx "1480.0"), "1480.0");
   ("N_STD", [], NInt 2, "2"); ("STD_LX", [2], NFloat (tx "-3.5"), "-3.5"); ("ANT_STAT", [4], NInt 1, "1");
   ("N_FEE", [], NInt 2, "2"); ("FEE_ID", [1], NText (tx "F7"), "F7"); ("N_RPD", [], NInt 4, "4"); ("RPD_VF", [], NFloat (tx "84"), "84"); ("RPD_LENG", [3], NFloat (tx "110.5"), "110.5");
   ("N_ARB", [], NInt 1, "1"); ("N_ARBCH", [], NInt 4, "4"); ("ARB_ID", [1], NText (tx "7"), "7"); ("ARB_ANT", [1; 4], NInt 0, "0");
   ("N_SNAP", [], NInt 2, "2"); ("N_SNAPCH", [], NInt 2, "2"); ("SNAP_ANT", [1; 1], NInt 4, "4"); ("SNAP_ANT", [2; 2], NInt 1, "1"); ("SNAP_INR", [1; 1], NText (tx "J0"), "J0")]%string.
Definition asp_items : list item := ex_items ++ [("ASP_AT1", [2], NInt 5, "5")]%string.
Lemma ex_range : forall f n, is_in f n -> n = 0 \/ n = 1 \/ n = 2 \/ n = 4 -> f = 1 \/ f = 2 \/ f = 3 \/ f = 4.
Proof.
  unfold is_in. intros. lia.
Qed.
Ltac ex_num := match goal with |- context [num ?e ?k] => let z := eval vm_compute in (num e k) in change (num e k) with z in * end.
Lemma ex_wired : forall more, more = [] \/ more = [("ASP_AT1", [2], NInt 5, "5")]%string -> wired (map entry_i (ex_items ++ more)).
Proof.
  intros more M.
  assert (K : forall k idx, In k ["ANT_STD"; "FEE_ANT1"; "FEE_ANT2"; "RPD_ANT"; "ARB_ANT"; "SNAP_ANT"]%string -> int_at (map entry_i (ex_items ++ more)) k idx = int_at (map entry_i ex_items) k idx).
  { destruct M as [->| ->]; intros k idx IK; [now rewrite app_nil_r|]. rewrite map_app. unfold int_at, value. cbn [map entry_i]. rewrite said_snoc. unfold about. cbn [e_key].
    destruct IK as [<-|[<-|[<-|[<-|[<-|[<-|[]]]]]]]; reflexivity. }
  assert (N1 : num (map entry_i (ex_items ++ more)) "N_STD" = 2) by (destruct M as [->| ->]; reflexivity).
  assert (N2 : num (map entry_i (ex_items ++ more)) "N_FEE" = 2) by (destruct M as [->| ->]; reflexivity).
  assert (N3 : num (map entry_i (ex_items ++ more)) "N_RPD" = 4) by (destruct M as [->| ->]; reflexivity).
  assert (N4 : num (map entry_i (ex_items ++ more)) "N_ARB" = 1) by (destruct M as [->| ->]; reflexivity).
  assert (N5 : num (map entry_i (ex_items ++ more)) "N_ARBCH" = 4) by (destruct M as [->| ->]; reflexivity).
  assert (N6 : num (map entry_i (ex_items ++ more)) "N_SNAP" = 2) by (destruct M as [->| ->]; reflexivity).
  assert (N7 : num (map entry_i (ex_items ++ more)) "N_SNAPCH" = 2) by (destruct M as [->| ->]; reflexivity).
  assert (A1 : forall a, is_in a 4 -> int_at (map entry_i ex_items) "ANT_STD" [a] = (a + 1) / 2).
  { intros a A. destruct (ex_range a 4 A) as [->|[->|[->| ->]]]; auto. }
  assert (A2 : forall f, is_in f 2 -> int_at (map entry_i ex_items) "FEE_ANT1" [f] = 2 * f - 1 /\ int_at (map entry_i ex_items) "FEE_ANT2" [f] = 2 * f).
  { intros f A. assert (C : f = 1 \/ f = 2) by (unfold is_in in A; lia). destruct C as [->| ->]; split; reflexivity. }
  assert (A3 : forall f, is_in f 4 -> int_at (map entry_i ex_items) "RPD_ANT" [f] = f).
  { intros a A. destruct (ex_range a 4 A) as [->|[->|[->| ->]]]; auto. }
  assert (A4 : forall c, is_in c 4 -> int_at (map entry_i ex_items) "ARB_ANT" [1; c] = if c =? 4 then 0 else c).
  { intros a A. destruct (ex_range a 4 A) as [->|[->|[->| ->]]]; auto. }
  assert (A5 : forall b c, is_in b 2 -> is_in c 2 -> int_at (map entry_i ex_items) "SNAP_ANT" [b; c] = match b, c with 1, 1 => 4 | 1, _ => 2 | _, 1 => 3 | _, _ => 1 end).
  { intros b c B C. assert (B' : b = 1 \/ b = 2) by (unfold is_in in B; lia). assert (C' : c = 1 \/ c = 2) by (unfold is_in in C; lia). destruct B' as [->| ->], C' as [->| ->]; reflexivity. }
  assert (PI : exists z, parse_int (text_at (map entry_i (ex_items ++ more)) "ARB_ID" [1]) = Some z) by (exists 7; destruct M as [->| ->]; reflexivity).
  assert (DD : forall a, 1 <= a <= 4 -> 1 <= (a + 1) / 2 <= 2) by (intros a A; split; [apply Z.div_le_lower_bound; lia|apply Z.lt_succ_r, Z.div_lt_upper_bound; lia]).
  assert (FA : forall p f, (p = 1 \/ p = 2) -> is_in f 2 -> fee_ant (map entry_i (ex_items ++ more)) p f = 2 * f - 2 + p).
  { intros p f P F. unfold fee_ant. rewrite !K by in_list. destruct (A2 f F) as [E1 E2]. destruct P as [->| ->]; cbn [Z.eqb Pos.eqb]; [rewrite E1|rewrite E2]; lia. }
  split; unfold antennas, stands in *; rewrite ?N1, ?N2, ?N3, ?N4, ?N5, ?N6, ?N7.
  - intros a A. rewrite K by in_list. rewrite A1 by exact A. apply DD. exact A.
  - intros p f P F. rewrite FA by assumption. unfold is_in in *. lia.
  - intros p f p' f' P P' F F'. rewrite !FA by assumption. lia.
  - intros r A. rewrite K by in_list. rewrite A3 by exact A. exact A.
  - intros r r' A B. rewrite !K by in_list. rewrite !A3 by assumption. auto.
  - intros b c B C. assert (b = 1) by (unfold is_in in B; lia). subst b. rewrite !K by in_list. rewrite A4 by exact C. destruct (Z.eqb_spec c 4); [now left|right; left]. unfold is_in in *. split; [lia|]. split; [lia|exact PI].
  - intros b c b' c' B C B' C'. assert (b = 1) by (unfold is_in in B; lia). assert (b' = 1) by (unfold is_in in B'; lia). subst b b'. rewrite !K by in_list. rewrite !A4 by assumption. destruct (Z.eqb_spec c 4), (Z.eqb_spec c' 4); lia.
  - intros b c B C. rewrite K by in_list. rewrite A5 by assumption. assert (B' : b = 1 \/ b = 2) by (unfold is_in in B; lia). assert (C' : c = 1 \/ c = 2) by (unfold is_in in C; lia). unfold is_in. destruct B' as [->| ->], C' as [->| ->]; lia.
  - intros b c b' c' B C B' C'. rewrite !K by in_list. rewrite !A5 by assumption.
    assert (b = 1 \/ b = 2) as [->| ->] by (unfold is_in in B; lia); assert (c = 1 \/ c = 2) as [->| ->] by (unfold is_in in C; lia);
    assert (b' = 1 \/ b' = 2) as [->| ->] by (unfold is_in in B'; lia); assert (c' = 1 \/ c' = 2) as [->| ->] by (unfold is_in in C'; lia); lia.
Qed.
(** A file with two stands: three values differ from the defaults' wiring, one ARX channel is unused; the antennas come in the order 4, 2, 3, 1. *)
Lemma C108_example_proof : let es := map entry_i ex_items in let ls := map line_i ex_items in
  file_says (fun _ => true) ls es /\ well_formed [] es = true /\ complete es = true /\ wired es /\
  match parse_ssmif (fun _ => true) ls with
  | Ok st => map a_id (t_ants st) = [4; 2; 3; 1] /\ map a_dig (t_ants st) = [1; 2; 3; 4] /\ t_name st = tx "LWASV" /\
      map (fun a => st_x (a_stand a)) (t_ants st) = map tx ["-3.5"; "0.0"; "-3.5"; "0.0"]%string /\ map (fun a => match a_arx a with Some x => x_chan x | None => 0 end) (t_ants st) = [0; 2; 3; 1]
  | Raise _ => False
  end.
Proof.
  cbv zeta. split; [apply items_say; [reflexivity|vm_compute; reflexivity]|]. split; [vm_compute; reflexivity|]. split; [vm_compute; reflexivity|].
  split; [rewrite <- (app_nil_r ex_items); apply ex_wired; now left|]. vm_compute. repeat split.
Qed.

(** The attenuation kept with an antenna's cable is that of the antenna's stand when the attenuators of the stand with the cable's own number are set the same, or,
    for cables with a number above the number of stands, when the antenna's stand is a least attenuated one.
    Missing: every other file with attenuators set stand by stand (see the refutation). *)
Lemma C109_attenuation_partial_proof : forall is_float lines es, file_says is_float lines es -> well_formed [] es = true -> complete es = true -> wired es ->
  exists st, parse_ssmif is_float lines = Ok st /\ forall a r, In a (t_ants st) -> is_in r (num es "N_RPD") -> int_at es "RPD_ANT" [r] = a_id a ->
    (r <= num es "N_STD" /\ forall k, In k ["ASP_AT1"; "ASP_AT2"; "ASP_AT3"]%string -> int_at es k [int_at es "ANT_STD" [a_id a]] = int_at es k [r]) \/
    (num es "N_STD" < r /\ forall k, In k ["ASP_AT1"; "ASP_AT2"; "ASP_AT3"]%string -> least es k (int_at es k [int_at es "ANT_STD" [a_id a]])) ->
    exists c, a_cable a = Some c /\ attenuation es (int_at es "ANT_STD" [a_id a]) (c_atten c).
Proof.
  intros isf lines es FS WF CM WI. destruct (run_file_inv isf lines es FS [] env0 inv0 WF) as (v & RV & IV). cbn [app] in IV.
  destruct (build_ok es v IV CM WI) as (m1 & m2 & m3 & name & iface & P1 & P2 & P3 & B & NM).
  apply py_min_least in P1, P2, P3.
  eexists. unfold parse_ssmif. rewrite RV. cbn [bind]. split; [exact B|]. cbn [t_ants]. intros a r AI RI.
  apply (Permutation_in _ (sort_perm _)) in AI. apply in_map_iff in AI as (k & <- & KI).
  assert (ID : a_id (Fin es m1 m2 m3 k) = k) by (unfold Fin; rewrite !hits_keep by reflexivity; reflexivity). rewrite ID. intros E H.
  set (x2 := hits (set_fee 2) (fl2 es) k (hits (set_fee 1) (fl1 es) k (A0_ es k))). set (x3 := hits set_cable (cl es m1 m2 m3) k x2).
  assert (XC : a_cable (Fin es m1 m2 m3 k) = a_cable x3) by (unfold Fin; rewrite !hits_keep by reflexivity; reflexivity).
  rewrite XC. unfold x3. destruct (hits_cases _ set_cable (cl es m1 m2 m3) k x2) as [[N _]|(y & b & Y & ->)].
  { exfalso. apply (N (C_ es m1 m2 m3 r)). unfold cl. apply in_map_iff. exists r. split; [f_equal; exact E|now apply in_R]. }
  unfold cl in Y. apply in_map_iff in Y as (g & Y & GI). injection Y as <- Y. apply in_R in GI. rewrite <- (w_rpd1 _ WI r g RI GI) by (rewrite E; symmetry; exact Y).
  eexists. split; [reflexivity|]. exists m1, m2, m3. split; [exact P1|]. split; [exact P2|]. split; [exact P3|]. unfold C_.
  assert (LU : forall k0 a0 b0, least es k0 a0 -> least es k0 b0 -> a0 = b0).
  { intros k0 a0 b0 [(s1 & I1 & E1) L1] [(s2 & I2 & E2) L2]. specialize (L1 s2 I2). specialize (L2 s1 I1). lia. }
  destruct H as [[RN H]|[RN H]].
  - replace (r <=? ns es) with true by (symmetry; apply Z.leb_le; exact RN). cbn [with_atten c_atten]. unfold I1_. rewrite !H by in_list. ring.
  - replace (r <=? ns es) with false by (symmetry; apply Z.leb_gt; exact RN). cbn [C0_ c_atten].
    rewrite (LU _ _ _ P1 (H "ASP_AT1"%string ltac:(in_list))), (LU _ _ _ P2 (H "ASP_AT2"%string ltac:(in_list))), (LU _ _ _ P3 (H "ASP_AT3"%string ltac:(in_list))). try reflexivity; ring.
Qed.

(** The file of the example above has the attenuators at their defaults, so the hypotheses hold for all its cables: all attenuations are zero. *)
Lemma C109_example_proof :
  match parse_ssmif (fun _ => true) (map line_i ex_items) with
  | Ok st => map (fun a => option_map c_atten (a_cable a)) (t_ants st) = [Some 0; Some 0; Some 0; Some 0]
  | Raise _ => False
  end.
Proof.
  vm_compute. reflexivity.
Qed.

(** An attenuator set for the second stand only is kept with the cable of the second antenna, which is on the first stand, and the cables of the second stand (antennas 3 and 4)
    get none: with the settings of single stands the attenuations go to the wrong antennas. *)
Lemma C109_attenuation_refuted_proof : let es := map entry_i asp_items in let ls := map line_i asp_items in
  file_says (fun _ => true) ls es /\ well_formed [] es = true /\ complete es = true /\ wired es /\
  attenuation es 1 0 /\ attenuation es 2 20 /\ int_at es "ANT_STD" [2] = 1 /\ int_at es "ANT_STD" [3] = 2 /\ int_at es "ANT_STD" [4] = 2 /\
  match parse_ssmif (fun _ => true) ls with
  | Ok st => map (fun a => (a_id a, option_map c_atten (a_cable a))) (t_ants st) = [(4, Some 0); (2, Some 20); (3, Some 0); (1, Some 0)]
  | Raise _ => False
  end.
Proof.
  cbv zeta. split; [apply items_say; [reflexivity|vm_compute; reflexivity]|]. split; [vm_compute; reflexivity|]. split; [vm_compute; reflexivity|].
  split; [unfold asp_items; apply ex_wired; now right|].
  assert (L : least (map entry_i asp_items) "ASP_AT1" 0 /\ least (map entry_i asp_items) "ASP_AT2" 0 /\ least (map entry_i asp_items) "ASP_AT3" 0).
  { repeat split; try (exists 1; split; [unfold is_in; vm_compute; split; discriminate|reflexivity]); intros s X; change (num (map entry_i asp_items) "N_STD") with 2 in X;
      assert (C : s = 1 \/ s = 2) by (unfold is_in in X; lia); destruct C as [->| ->]; vm_compute; discriminate. }
  destruct L as (L1 & L2 & L3). split; [exists 0, 0, 0; repeat split; first [apply L1|apply L2|apply L3]|]. split; [exists 0, 0, 0; repeat split; first [apply L1|apply L2|apply L3]|].
  split; [reflexivity|]. split; [reflexivity|]. split; [reflexivity|]. vm_compute. reflexivity.
Qed.

(** The third attenuator set for one stand gets the first attenuator's last value; before any setting of the first attenuator the file is refused. *)
Lemma C109_third_attenuator_refuted_proof :
  (match run_text (fun _ => true) (map line_i (ex_items ++ [("ASP_AT1", [2], NInt 5, "5"); ("ASP_AT3", [1], NInt 9, "9")]%string)) env0 with
   | Ok v => v "aspAT3"%string = Some (VL [VI 5; VI 0])
   | Raise _ => False
   end) /\
  parse_ssmif (fun _ => true) (map line_i (ex_items ++ [("ASP_AT3", [1], NInt 9, "9")]%string)) = Raise NameError.
Proof.
  vm_compute. split; reflexivity.
Qed.

(** After any well-formed beginning, an entry with a version other than 10, with something that is not a whole number where one is needed, or for something beyond the number
    declared makes the whole file refused, whatever follows. *)
Lemma C110_refused_proof : forall is_float ls es l e rest, file_says is_float ls es -> well_formed [] es = true -> line_says is_float l (Some e) ->
  (forall z, e_key e = "FORMAT_VERSION"%string -> e_val e = NInt z -> z <> 10 -> parse_ssmif is_float (ls ++ l :: rest) = Raise RuntimeError) /\
  (forall t sh d, e_val e = NText t -> entry_of (e_key e) format = Some (sh, TInt, d) -> parse_int t = None -> parse_ssmif is_float (ls ++ l :: rest) = Raise ValueError) /\
  (beyond es e -> parse_ssmif is_float (ls ++ l :: rest) = Raise IndexError).
Proof.
  intros isf ls es l e rest FS WF L. split; [|split].
  - intros z K V N. eapply refuse; eauto. intros v t _ SH. rewrite V in SH. cbn [shows] in SH. unfold run_entry. rewrite K. cbn [assoc table String.eqb Ascii.eqb Bool.eqb run_instr]. rewrite SH.
    now rewrite (proj2 (Z.eqb_neq z 10) N).
  - intros t sh d V E P. eapply refuse; eauto. intros v u _ SH. rewrite V in SH. cbn [shows] in SH. subst u. eapply bad_int; eauto.
  - intro BY. eapply refuse; eauto. intros v t IV SH. eapply run_beyond; eauto.
Qed.

(** The beginning of the example's file followed by each of the three. *)
Lemma C110_example_proof : let es := map entry_i ex_items in let bad := mkEntry "SNAP_ANT" [2; 3] (NInt 1) in
  file_says (fun _ => true) (map line_i ex_items) es /\ well_formed [] es = true /\
  line_says (fun _ => true) (tx "SNAP_ANT[2][3] 1") (Some bad) /\ beyond es bad /\
  parse_ssmif (fun _ => true) (map line_i ex_items ++ [tx "SNAP_ANT[2][3] 1"]) = Raise IndexError /\
  parse_ssmif (fun _ => true) (map line_i ex_items ++ [tx "N_SERVER two"]) = Raise ValueError /\
  parse_ssmif (fun _ => true) (map line_i ex_items ++ [tx "FORMAT_VERSION 9"]) = Raise RuntimeError.
Proof.
  cbv zeta. split; [apply items_say; [reflexivity|vm_compute; reflexivity]|]. split; [vm_compute; reflexivity|].
  split. { change (tx "SNAP_ANT[2][3] 1") with (line_i ("SNAP_ANT", [2; 3], NInt 1, "1")%string). apply line_i_says; [reflexivity|vm_compute; reflexivity]. }
  split. { unfold beyond. do 3 eexists. split; [reflexivity|]. split; [reflexivity|]. cbn [e_ids]. exists 2, 2. split; [reflexivity|]. split; [reflexivity|]. right. lia. }
  vm_compute. repeat split.
Qed.

(** Index 0 is not refused but changes the last element, a missing index changes the last but one, and antenna number 0 gives its digitizer to the last antenna;
    a file without FORMAT_VERSION is accepted. *)
Lemma C110_other_indices_refuted_proof :
  (match run_text (fun _ => true) (map line_i ex_items ++ [tx "ANT_STAT[0] 2"; tx "FEE_STAT 1"]) env0 with
   | Ok v => v "stdStat"%string = Some (VL [VI 3; VI 3; VI 3; VI 2]) /\ v "feeStat"%string = Some (VL [VI 1; VI 3])
   | Raise _ => False
   end) /\
  (match parse_ssmif (fun _ => true) (map line_i ex_items ++ [tx "SNAP_ANT[1][2] 0"]) with
   | Ok st => map (fun a => (a_id a, a_dig a)) (t_ants st) = [(2, 0); (4, 2); (3, 3); (1, 4)]
   | Raise _ => False
   end) /\
  (match parse_ssmif (fun _ => true) (map line_i (tl ex_items)) with Ok st => length (t_ants st) = 4%nat | Raise _ => False end).
Proof.
  vm_compute. repeat split.
Qed.

(** A file that does not name an ARX board is refused as soon as one of its channels is used, although the board's name has a default; a blank after the
    station's identifier makes the station unknown; a comment line that does not start in the first column is refused; the port of an ARX board overwrites its rack. *)
Lemma C110_incomplete_refuted_proof :
  parse_ssmif (fun _ => true) (map line_i (filter (fun x => negb (String.eqb (e_key (entry_i x)) "ARB_ID")) ex_items)) = Raise ValueError /\
  (match parse_ssmif (fun _ => true) (map line_i ex_items ++ [tx "STATION_ID SV "]) with Ok st => t_name st = tx "New LWA Station" | Raise _ => False end) /\
  parse_ssmif (fun _ => true) (map line_i ex_items ++ [tx " # a comment"]) = Raise AttributeError /\
  parse_ssmif (fun _ => true) (map line_i ex_items ++ [tx " #comment"]) = Raise ValueError /\
  (match run_text (fun _ => true) (map line_i ex_items ++ [tx "ARB_RACK[1] 2"; tx "ARB_PORT[1] 6"]) env0 with
   | Ok v => v "arxRack"%string = Some (VL [VI 6]) /\ v "arxPort"%string = Some (VL [VI 0])
   | Raise _ => False
   end).
Proof.
  vm_compute. repeat split.
Qed.
