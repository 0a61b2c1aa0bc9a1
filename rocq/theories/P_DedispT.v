(** Dedispersion: the theorems. *)
From Coq Require Import String.
From Coq Require Import List ZArith QArith Qabs Qcanon Bool Lia.
From Verif Require Import LibList M_Dedisp S_Dedisp P_Base P_Dedisp P_Dedisp2 P_Dedisp3 P_Dedisp4 P_Dedisp5.
Import ListNotations.
Open Scope Z_scope.

(** ** Incoherent dedispersion *)
Lemma inc_eq : forall (A : Type) times0 freq (w : list (list A)) tInt dm fill (b : bool), (2 <= length freq)%nat ->
  incoherent times0 freq w tInt dm (if b then "fill" else "wrap")%string fill
  = dd_channels b fill (map (shift tInt) (map (channel_delay dm (top freq)) freq)) w (map (map times0) w).
Proof. intros A times0 freq w tInt dm fill b L. unfold incoherent. rewrite delay_list by auto. destruct b; reflexivity. Qed.
Definition inc_wrap {A} times0 freq (w : list (list A)) tInt dm fill := inc_eq A times0 freq w tInt dm fill false.
Definition inc_fill {A} times0 freq (w : list (list A)) tInt dm fill := inc_eq A times0 freq w tInt dm fill true.
(** Every channel is moved by its delay, and with the opposite dispersion measure by as much in the other direction.
    [ds] are the delays in integrations (shifts_for). *)
Lemma C65_wrap_proof : forall (A : Type) times0 freq (w : list (list A)) tInt dm fill,
  (2 <= length freq)%nat -> (forall f, In f freq -> (0 < f)%Q) -> (0 < tInt)%Q -> (0 <= dm)%Q -> length w = length freq ->
  exists ds out out', shifts_for freq tInt dm ds /\
    incoherent times0 freq w tInt dm "wrap" fill = Ok out /\ channels wrapped ds w out /\
    incoherent times0 freq w tInt (- dm) "wrap" fill = Ok out' /\ channels wrapped (map Z.opp ds) w out'.
Proof.
  intros A times0 freq w tInt dm fill L F Ht Hd Lw. destruct (incoherent_wrap times0 freq w tInt dm fill L Lw) as (o & E & C).
  destruct (incoherent_wrap times0 freq w tInt (- dm) fill L Lw) as (o' & E' & C'). rewrite opp_shifts in C'.
  eexists _, o, o'. split; [apply shifts_ok; auto|]. auto.
Qed.
(** With boundary='fill' the samples that were not recorded become the fill value. *)
Lemma C65_fill_proof : forall (A : Type) times0 freq (w : list (list A)) tInt dm fill,
  (2 <= length freq)%nat -> (forall f, In f freq -> (0 < f)%Q) -> (0 < tInt)%Q -> (0 <= dm)%Q -> length w = length freq ->
  exists ds out, shifts_for freq tInt dm ds /\ incoherent times0 freq w tInt dm "fill" fill = Ok out /\ channels (filled fill) ds w out.
Proof.
  intros A times0 freq w tInt dm fill L F Ht Hd Lw. pose proof (shifts_ok freq tInt dm L F Ht Hd) as S.
  destruct (incoherent_fill times0 freq w tInt dm fill L Lw) as (o & E & C).
  - destruct S as (f0 & _ & _ & S & _). clear - S. induction S as [|f d l ds (S1 & _)]; constructor; auto.
  - eexists _, o. split; [exact S|]. auto.
Qed.
Definition ex_freq : list Q := [30000000; 60000000]%Q.
Lemma C65_fill_example_proof : incoherent (fun _ => 0) ex_freq [[1; 2; 3; 4; 5]; [1; 2; 3; 4; 5]] 1 1 "fill" (-1) = Ok [[4; 5; -1; -1; -1]; [1; 2; 3; 4; 5]] /\
  incoherent (fun _ => 0) ex_freq [[1; 2; 3; 4; 5]; [1; 2; 3; 4; 5]] 1 1 "wrap" (-1) = Ok [[4; 5; 1; 2; 3]; [1; 2; 3; 4; 5]].
Proof. split; reflexivity. Qed.
(** Undoing it: dedispersion with the opposite dispersion measure gives back exactly the waterfall, in double
    precision, for every dispersion measure and integration time. *)
Lemma C65_round_trip_proof : forall (A : Type) times0 freq (w w' : list (list A)) tInt dm fill,
  (2 <= length freq)%nat -> length w = length freq ->
  incoherent times0 freq w tInt dm "wrap" fill = Ok w' -> incoherent times0 freq w' tInt (- dm) "wrap" fill = Ok w.
Proof.
  intros A times0 freq w w' tInt dm fill L Lw E. rewrite inc_wrap in * by auto.
  rewrite opp_shifts. set (ds := map (shift tInt) (map (channel_delay dm (top freq)) freq)) in *.
  assert (Ld : length w = length ds) by (unfold ds; rewrite !map_length; auto).
  destruct (dd_channels_ok wrapped false fill ds w (map (map times0) w) []) as (r & E1 & C1); auto.
  { intros a d _. apply roll_wrapped. } { rewrite map_length. auto. }
  specialize (E1 [] eq_refl). rewrite !app_nil_r in E1.
  apply (channels_back fill ds w w' (map (map times0) w)); auto; [rewrite map_length; auto|].
  rewrite map_length. assert (w' = r) by (rewrite E in E1; inversion E1; reflexivity). subst r. clear - C1. induction C1; simpl; auto.
Qed.
(** More channels than frequencies: the others are multiplied by zero; fewer: IndexError; another boundary: ValueError. *)
Lemma C65_other_sizes_proof : forall (A : Type) times0 freq (w rest : list (list A)) tInt dm fill,
  (2 <= length freq)%nat -> length w = length freq ->
  (exists out, incoherent times0 freq w tInt dm "wrap" fill = Ok out /\ incoherent times0 freq (w ++ rest) tInt dm "wrap" fill = Ok (out ++ map (map times0) rest)) /\
  (forall few boundary, (length few < length freq)%nat -> boundary = "wrap"%string \/ boundary = "fill"%string -> incoherent times0 freq few tInt dm boundary fill = Raise IndexError) /\
  (forall boundary, boundary <> "wrap"%string -> boundary <> "fill"%string -> incoherent times0 freq w tInt dm boundary fill = Raise ValueError).
Proof.
  intros A times0 freq w rest tInt dm fill L Lw. split; [|split].
  - rewrite !inc_wrap by auto. set (ds := map (shift tInt) (map (channel_delay dm (top freq)) freq)).
    assert (Ld : length w = length ds) by (unfold ds; rewrite !map_length; auto).
    assert (M : exists out, forall r' rr, length r' = length rr -> dd_channels false fill ds (w ++ r') (map (map times0) w ++ rr) = Ok (out ++ rr)).
    { clear - Ld. clearbody ds. revert w Ld. induction ds as [|d ds IH]; intros [|c w] Ld; try discriminate.
      - exists []. reflexivity.
      - destruct (IH w) as (out & E); auto. exists (roll c (- d) :: out). intros r' rr Lr. cbn [dd_channels app map andb]. rewrite E by auto. reflexivity. }
    destruct M as (out & M). exists out. split.
    + specialize (M [] [] eq_refl). rewrite !app_nil_r in M. exact M.
    + rewrite map_app. apply M. rewrite map_length. auto.
  - intros few b Lf Hb. destruct Hb as [-> | ->]; [rewrite inc_wrap by auto | rewrite inc_fill by auto];
      apply dd_channels_short; rewrite ?map_length; auto.
  - intros b N1 N2. unfold incoherent. apply String.eqb_neq in N1, N2. rewrite N1, N2. reflexivity.
Qed.
(** REFUTED: with a negative dispersion measure nothing is filled: the samples come from the other end. *)
Lemma C65_fill_negative_refuted_proof : (forall (A : Type) times0 freq (w : list (list A)) tInt dm fill,
  (2 <= length freq)%nat -> (forall f, In f freq -> (0 < f)%Q) -> (0 < tInt)%Q -> (0 <= dm)%Q ->
  incoherent times0 freq w tInt (- dm) "fill" fill = incoherent times0 freq w tInt (- dm) "wrap" fill) /\
  incoherent (fun _ => 0) ex_freq [[1; 2; 3; 4; 5]; [1; 2; 3; 4; 5]] 1 (-(1)) "fill" (-1) = Ok [[3; 4; 5; 1; 2]; [1; 2; 3; 4; 5]].
Proof.
  split; [|reflexivity]. intros A times0 freq w tInt dm fill L F Ht Hd. rewrite inc_wrap, inc_fill by auto.
  rewrite opp_shifts. apply channels_negative. destruct (shifts_ok freq tInt dm L F Ht Hd) as (f0 & _ & _ & S & _).
  clear - S. induction S as [|f d l ds (S1 & _)]; constructor; auto. lia.
Qed.
(** REFUTED: a waterfall with a single frequency cannot be dedispersed. *)
Lemma C65_single_frequency_refuted_proof : forall (A : Type) times0 f (w : list (list A)) tInt dm fill,
  incoherent times0 [f] w tInt dm "wrap" fill = Raise TypeError.
Proof. reflexivity. Qed.

(** ** Coherent dedispersion *)
Lemma even_N : forall N, 0 < N -> N mod 2 = 0 -> exists H, 0 < H /\ N = 2 * H /\ N / 2 = H /\ N / 4 = H / 2.
Proof.
  intros N P M. exists (N / 2). pose proof (Z_div_exact_full_2 N 2 ltac:(lia) M) as E. split; [lia|]. split; auto. split; auto.
  rewrite E at 1. apply quarter_N.
Qed.
(** What coherent() returns, sample by sample: the time and the windowed sample where the block is not left out, zero
    elsewhere.  [dd] is what is done to a window, [N] its (even) size. *)
Lemma C66_samples_proof : forall (T A : Type) zT zA N dd (t : list T) (x : list A) prev next,
  0 < N -> N mod 2 = 0 -> N <= zlen x -> zlen t = zlen x -> (forall y, zlen y = N -> zlen (dd y) = N) ->
  enough (N / 4) prev -> enough (N * (zlen x / N) + N - N / 4 - zlen x) next ->
  exists oT oD, coherent_with zT zA N dd t x (option_map fst prev) (option_map snd prev) (option_map fst next) (option_map snd next) = Ok (oT, oD) /\
    zlen oT = zlen x /\ zlen oD = zlen x /\
    forall k, 0 <= k < zlen x ->
      znth zT k oT = (if left_out N (zlen x) prev next k then zT else znth zT k t) /\
      znth zA k oD = (if left_out N (zlen x) prev next k then zA else windowed zA N dd (stream zA (option_map snd prev) x (option_map snd next)) k).
Proof.
  intros T A zT zA N dd t x prev next P M LN Lt Hdd Ep En. destruct (even_N N P M) as (H & HH & -> & E2 & E4). rewrite E4 in *.
  apply (coherent_ok zT zA H (zlen x / (2 * H)) t x prev next); auto. apply Z.div_str_pos. lia.
Qed.
(** With an impulse response of at most a quarter window to either side, windows do not show: every sample that is not
    left out is the convolution of the stream of previous, given and next data. *)
Lemma C66_convolution_proof : forall (T : Type) zT N h (t : list T) x prev next,
  0 < N -> N mod 2 = 0 -> N <= zlen x -> zlen t = zlen x -> (forall j, N / 4 < j < N - N / 4 -> h j = czero) ->
  enough (N / 4) prev -> enough (N * (zlen x / N) + N - N / 4 - zlen x) next ->
  exists oT oD, coherent_with zT czero N (circular N h) t x (option_map fst prev) (option_map snd prev) (option_map fst next) (option_map snd next) = Ok (oT, oD) /\
    zlen oD = zlen x /\
    forall k, 0 <= k < zlen x -> left_out N (zlen x) prev next k = false ->
      znth czero k oD = convolved (N / 4) (fun j => h (j mod N)) (stream czero (option_map snd prev) x (option_map snd next)) k.
Proof.
  intros T zT N h t x prev next P M LN Lt Hh Ep En.
  destruct (C66_samples_proof T cplx zT czero N (circular N h) t x prev next P M LN Lt) as (oT & oD & E & _ & L & O); auto.
  { intros. apply circular_len. lia. }
  exists oT, oD. split; auto. split; auto. intros k Hk Lo. destruct (O k Hk) as [_ ->]. rewrite Lo.
  destruct (even_N N P M) as (H & HH & -> & E2 & E4). rewrite E4 in *. apply windowed_circular; auto.
Qed.
(** In pieces: pieces of whole half windows, each with its neighbours as previous and next data, give together exactly
    what one call for all of them gives. *)
Lemma C66_pieces_proof : forall (T A : Type) zT zA N dd (l : list (list T * list A)) prev next,
  0 < N -> N mod 2 = 0 -> (forall y, zlen y = N -> zlen (dd y) = N) -> l <> [] ->
  Forall (fun p => zlen (fst p) = zlen (snd p) /\ N <= zlen (snd p) /\ zlen (snd p) mod (N / 2) = 0) l ->
  enough N prev -> enough N next -> next <> None ->
  piecewise (coherent_with zT zA N dd) prev l next = whole (coherent_with zT zA N dd) prev l next.
Proof.
  intros T A zT zA N dd l prev next P M Hdd Hne Fl Ep En Nn. destruct (even_N N P M) as (H & HH & -> & E2 & E4). rewrite E2 in Fl.
  assert (MM : forall L, 0 <= L -> L mod H = 0 -> L mod (2 * H) <= H).
  { intros L L0 LM. pose proof (Z.mod_pos_bound L (2 * H) ltac:(lia)). pose proof (Z.div_mod L (2 * H) ltac:(lia)) as DM.
    pose proof (Z_div_exact_full_2 L H ltac:(lia) LM) as EL. set (q := L / (2 * H)) in *. set (r := L mod (2 * H)) in *. set (m := L / H) in *. clearbody q r m. 
    assert (r = H * (m - 2 * q)) by lia. assert (m - 2 * q < 2) by nia. nia. }
  assert (Fc : Forall (cuttable H H) l).
  { eapply Forall_impl; [|exact Fl]. intros [t x] (A1 & A2 & A3). cbn [fst snd] in *. repeat split; auto. cbn [fst snd]. apply MM; auto. apply zlen_nonneg. }
  apply (pieces_whole zT zA H HH dd Hdd (windowed zA (2 * H) dd) H HH); auto.
  - intros. apply windowed_local; auto.
  - apply MM; [apply zlen_nonneg|]. clear - Fl HH. induction Fl as [|[t x] l (_ & _ & B) _ IH]; [reflexivity|].
    cbn [map concat snd] in *. rewrite zlen_app, Z.add_mod, B, IH, Z.add_0_l by lia. apply Z.mod_0_l. lia.
Qed.
(** With an impulse response of at most a quarter window to either side the same holds for pieces of any length that
    leave at most half a window over. *)
Lemma C66_pieces_convolution_proof : forall (T : Type) zT N h (l : list (list T * list cplx)) prev next,
  0 < N -> N mod 2 = 0 -> (forall j, N / 4 < j < N - N / 4 -> h j = czero) -> l <> [] ->
  Forall (fun p => zlen (fst p) = zlen (snd p) /\ N <= zlen (snd p) /\ zlen (snd p) mod N <= N / 2) l ->
  zlen (concat (map snd l)) mod N <= N / 2 -> enough N prev -> enough N next -> next <> None ->
  piecewise (coherent_with zT czero N (circular N h)) prev l next = whole (coherent_with zT czero N (circular N h)) prev l next.
Proof.
  intros T zT N h l prev next P M Hh Hne Fl ML Ep En Nn. destruct (even_N N P M) as (H & HH & -> & E2 & E4). rewrite E2, E4 in *.
  apply (pieces_whole zT czero H HH (circular (2 * H) h) ltac:(intros; apply circular_len; lia) (convolved (H / 2) (fun j => h (j mod (2 * H)))) 1 ltac:(lia)); auto.
  - intros. apply windowed_circular; auto.
  - intros s s' o k _ E. apply convolved_local. intros j Hj. apply E. assert (H / 2 <= H) by (apply Z.div_le_upper_bound; lia). lia.
  - eapply Forall_impl; [|exact Fl]. intros [t x] (A1 & A2 & A3). cbn [fst snd] in *. repeat split; auto. apply Z.mod_1_r.
Qed.
Definition ex_h (j : Z) : cplx := if (j =? 0) || (j =? 3) then (1%Qc, 0%Qc) else czero.
Definition ex_x (k : Z) : list cplx := map (fun i => (Q2Qc (inject_Z i), 0%Qc)) (range (k + 1) (k + 5)).
Definition ex_sum (a b : Z) : cplx := (Q2Qc (inject_Z (a + b)), 0%Qc).
Lemma C66_pieces_example_proof : (forall j, 4 / 4 < j < 4 - 4 / 4 -> ex_h j = czero) /\
  piecewise (coherent_with 0 czero 4 (circular 4 ex_h)) (Some (range 0 4, ex_x 0)) [(range 4 8, ex_x 4); (range 8 12, ex_x 8)] (Some (range 12 16, ex_x 12))
  = Ok (range 4 12, map (fun i => ex_sum i (i + 1)) (range 5 13)).
Proof.
  split.
  - intros j Hj. change (4 / 4) with 1 in Hj. unfold ex_h. replace (j =? 0) with false by lia. replace (j =? 3) with false by lia. reflexivity.
  - vm_compute. repeat f_equal; apply Qc_is_canon; reflexivity.
Qed.
(** Previous or next data that is too short (and not of length one) is an error, as are fewer samples than a window. *)
Lemma C66_too_short_proof : forall (T A : Type) zT zA N dd (t : list T) (x : list A),
  0 < N -> N mod 2 = 0 -> zlen t = zlen x -> (forall y, zlen y = N -> zlen (dd y) = N) ->
  (forall pt pd nt nd, zlen x < N -> coherent_with zT zA N dd t x pt pd nt nd = Raise RuntimeError) /\
  (forall pt pd nt nd, N <= zlen x -> zlen pt = zlen pd -> zlen pd < N / 4 -> zlen pd <> 1 ->
     coherent_with zT zA N dd t x (Some pt) (Some pd) nt nd = Raise RuntimeError) /\
  (forall prev nt nd, N <= zlen x -> enough (N / 4) prev -> zlen nt = zlen nd -> zlen nd < N * (zlen x / N) + N - N / 4 - zlen x -> zlen nd <> 1 ->
     coherent_with zT zA N dd t x (option_map fst prev) (option_map snd prev) (Some nt) (Some nd) = Raise RuntimeError).
Proof.
  intros T A zT zA N dd t x P M Lt Hdd. destruct (even_N N P M) as (H & HH & -> & E2 & E4). rewrite E4. split; [|split].
  - intros. unfold coherent_with. destruct (Z.eqb_spec (2 * H) 0); [lia|]. rewrite Z.div_small by (pose proof (zlen_nonneg x); lia). reflexivity.
  - intros. apply short_previous; auto.
  - intros. apply short_next; auto.
Qed.
(** REFUTED: previous data of a single sample, too short as it is, is accepted and taken for as many equal samples as
    are needed. *)
Lemma C66_single_previous_refuted_proof : forall z x1 x2 x3 x4 x5 x6 x7 x8 p : Z, let x := [x1; x2; x3; x4; x5; x6; x7; x8] in
  zlen [p] < 8 / 4 /\
  coherent_with 0 z 8 (fun y => rev y) (range 0 8) x (Some [0]) (Some [p]) None None = coherent_with 0 z 8 (fun y => rev y) (range 0 8) x (Some [0; 0]) (Some [p; p]) None None /\
  exists o, coherent_with 0 z 8 (fun y => rev y) (range 0 8) x (Some [0]) (Some [p]) None None = Ok o.
Proof. intros. split; [reflexivity|]. split; [reflexivity|eexists; reflexivity]. Qed.
(** REFUTED: samples more than half a window behind the last whole window stay zero although next data is there. *)
Lemma C66_remainder_refuted_proof : (forall (T A : Type) zT zA N dd (t : list T) (x : list A) prev next k,
  0 < N -> N mod 2 = 0 -> N <= zlen x -> zlen t = zlen x -> (forall y, zlen y = N -> zlen (dd y) = N) ->
  enough (N / 4) prev -> enough N next -> N * (zlen x / N) + N / 2 <= k < zlen x ->
  exists oT oD, coherent_with zT zA N dd t x (option_map fst prev) (option_map snd prev) (option_map fst next) (option_map snd next) = Ok (oT, oD) /\
    znth zT k oT = zT /\ znth zA k oD = zA) /\
  coherent_with 0 0 4 (fun y => y) (range 1 8) (range 1 8) (Some (range (-3) 1)) (Some (range (-3) 1)) (Some (range 8 12)) (Some (range 8 12)) = Ok ([1; 2; 3; 4; 5; 6; 0], [1; 2; 3; 4; 5; 6; 0]).
Proof.
  split; [|reflexivity]. intros T A zT zA N dd t x prev next k P M LN Lt Hdd Ep En Hk.
  assert (En' : enough (N * (zlen x / N) + N - N / 4 - zlen x) next).
  { pose proof (Z.div_mod (zlen x) N ltac:(lia)). pose proof (Z.mod_pos_bound (zlen x) N P). assert (0 <= N / 4) by (apply Z.div_pos; lia). destruct next as [[u v]|]; auto. simpl in *. lia. }
  destruct (C66_samples_proof T A zT zA N dd t x prev next P M LN Lt Hdd Ep En') as (oT & oD & E & _ & _ & O).
  exists oT, oD. split; auto. assert (0 <= N * (zlen x / N)) by (apply Z.mul_nonneg_nonneg; [lia|apply Z.div_pos; lia]). assert (0 <= N / 2) by (apply Z.div_pos; lia).
  assert (LO : left_out N (zlen x) prev next k = true).
  { unfold left_out. destruct (even_N N P M) as (h2 & HH & EN & E2 & E4). rewrite E2. replace (2 * (zlen x / N) <? k / h2) with true; [apply orb_true_r|].
    symmetry. apply Z.ltb_lt. assert (2 * (zlen x / N) + 1 <= k / h2); [|lia]. apply Z.div_le_lower_bound; auto. rewrite E2 in Hk. rewrite EN in Hk at 1. nia. }
  destruct (O k ltac:(lia)) as [O1 O2]. rewrite LO in *. auto.
Qed.
(** REFUTED: without next data the last block is not left out if few samples remain: it is made with zeros in place of
    the data that is missing.  Here each sample is to be the sum of two successive ones; the last of 3 + 4, 4 + ? is
    given as 4. *)
Lemma C66_end_refuted_proof : coherent_with 0 czero 4 (circular 4 ex_h) (range 0 4) (ex_x 0) None None None None
  = Ok ([0; 0; 2; 3], [czero; czero; ex_sum 3 4; ex_sum 4 0]).
Proof. vm_compute. repeat f_equal; apply Qc_is_canon; reflexivity. Qed.

(** ** Window size and cache *)
(** The result of a call does not depend on the calls made before it, on their enable_caching or on its own. *)
Lemma C67_history_proof : forall (K V R : Type) keq (compute : K -> res V) earlier k enable (rest : V -> res R),
  (forall k k', keq k k' = true -> compute k = compute k') ->
  snd (call keq compute (after_calls keq compute [] earlier) k enable rest) = bind (compute k) rest.
Proof. intros. apply call_fresh. auto. Qed.
Lemma C67_history_example_proof : let compute := fun k => if k =? 0 then Raise ZeroDivisionError else Ok (10 * k) in
  after_calls Z.eqb compute [] [(1, true); (2, false); (0, true); (1, true)] = [(1, 10)] /\
  snd (call Z.eqb compute (after_calls Z.eqb compute [] [(1, true); (2, false); (0, true); (1, true)]) 1 false (fun v => Ok v)) = Ok 10.
Proof. split; reflexivity. Qed.
(** The window: half of it covers the delay across the band, and not twice more than that. *)
Lemma C67_window_size_partial_proof : forall F0 BW dm,
  let samples := (true_delay dm (F0 - BW / 2) (F0 + BW / 2) * BW)%Q in (1 < samples)%Q ->
  exists half, get_coherent_sample_size F0 BW dm = Ok (2 * half) /\ 0 < half /\ (samples <= inject_Z half)%Q /\ (inject_Z half < 2 * samples)%Q.
Proof. exact window_size. Qed.
Lemma C67_window_size_example_proof : get_coherent_sample_size 74000000 100000 10 = Ok 4096.
Proof. reflexivity. Qed.
(** REFUTED: a delay of at most half a sample makes a window of one sample, and then every result is zero, whatever
    the data is. *)
Lemma C67_small_dm_refuted_proof : get_coherent_sample_size 74000000 100000 (1 # 500) = Ok 1 /\
  forall (T A : Type) (zT : T) (zA : A) dd t x pt pd nt nd, x <> [] -> zlen t = zlen x ->
    coherent_with zT zA 1 dd t x pt pd nt nd = Ok (zeros zT (zlen x), zeros zA (zlen x)).
Proof. split; [reflexivity|]. exact one_sample. Qed.
(** REFUTED: without dispersion there is no window, and the call fails instead of returning the data; with a negative
    dispersion measure there is no window either. *)
Lemma C67_no_dispersion_refuted_proof : (forall F0 BW, get_coherent_sample_size F0 BW 0 = Ok 0) /\
  (forall (T A : Type) (zT : T) (zA : A) dd t x pt pd nt nd, coherent_with zT zA 0 dd t x pt pd nt nd = Raise ZeroDivisionError) /\
  get_coherent_sample_size 74000000 100000 (-(10)) = Raise ValueError.
Proof.
  split; [|split; [|reflexivity]].
  - intros F0 BW. unfold get_coherent_sample_size. replace (Qeq_bool _ 0) with true; [reflexivity|]. symmetry. apply Qeq_bool_iff. ring.
  - reflexivity.
Qed.
