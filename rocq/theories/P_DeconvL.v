(** The loop of clean and its restored image. *)
From Coq Require Import List ZArith QArith Qround Qcanon Bool Lia.
From Verif Require Import LibList M_Py M_Num M_Base P_Base S_Corr P_Corr P_GridC P_Math M_Deconv S_Deconv P_Deconv P_DeconvC.
Import ListNotations.
Open Scope Z_scope.

Lemma py_int_num k : py_int (this (num k)) = k.
Proof.
  assert (E : (this (num k) == inject_Z k)%Q) by apply this_num. unfold py_int. destruct (Qle_bool 0 (this (num k))) eqn:T.
  - rewrite E. apply Qfloor_Z.
  - rewrite E, <- inject_Z_opp, Qfloor_Z. lia.
Qed.
Lemma five_nz : qz 5 <> 0%Qc. Proof. intro E. discriminate E. Qed.
Lemma fifths_key z : (qz (py_int (this (fifths z * qz 5)%Qc)) / qz 5)%Qc = fifths z.
Proof.
  unfold fifths. assert (E : (qz (py_round (this (z * qz 5))) / qz 5 * qz 5)%Qc = num (py_round (this (z * qz 5)))) by (change num with qz; field; exact five_nz).
  rewrite E, py_int_num. reflexivity.
Qed.
Lemma py_round_pos q : (0 <= q)%Q -> 0 <= py_round q.
Proof.
  intro P. assert (F : 0 <= Qfloor q) by (change 0 with (Qfloor 0); apply Qfloor_resp_le, P). unfold py_round. destruct (Qle_bool (1 # 2) _); [|exact F]. destruct (Qle_bool _ (1 # 2)); [|lia]. destruct (Z.even _); lia.
Qed.
Lemma fifths_pos z : (0 <= z)%Qc -> (0 <= fifths z)%Qc.
Proof.
  intro P. unfold fifths. assert (K : 0 <= py_round (this (z * qz 5)%Qc)).
  { apply py_round_pos. rewrite this_mult. apply Qmult_le_0_compat; [exact P|]. intro E. discriminate E. }
  unfold Qcdiv. replace 0%Qc with (0 * / qz 5)%Qc by ring. apply Qcmult_le_compat_r; [change (num 0 <= num (py_round (this (z * qz 5)%Qc)))%Qc; apply num_le, K|]. intro E. discriminate E.
Qed.
Lemma bound_low n i : 0 <= i <= n -> bound n i = i. Proof. intro B. unfold bound. rewrite (proj2 (Z.ltb_ge i 0)) by lia. lia. Qed.

Lemma position_edge (H W : Z) (fit : image -> Z -> Z -> Z -> Z -> Qc * Qc) (FWHM : Z) (r : image) p : 0 <= FWHM / 2 /\ 2 * (FWHM / 2) + 1 <= H /\ 2 * (FWHM / 2) + 1 <= W -> inside H W p -> fst p < FWHM / 2 \/ snd p < FWHM / 2 -> position H W fit FWHM r p = None.
Proof.
  intros width [I1 I2] D. unfold position. match goal with |- (if ?c then _ else _) = _ => assert (E : c = false) end; [|rewrite E; reflexivity].
  apply andb_false_iff. destruct D as [D|D]; [left|right]; apply Z.ltb_ge; unfold bound; repeat match goal with |- context [?a <? 0] => destruct (Z.ltb_spec a 0) end; lia.
Qed.

Section Loop.
Context (H W : Z) (fit : image -> Z -> Z -> Z -> Z -> Qc * Qc) (response : Qc -> Qc -> image) (deviation : list Qc -> Qc).
Context (ra dec img : image) (FWHM : Z) (gain sigma : Qc).
Context (fit_right : forall a x0 x1 y0 y1, (0 <= fst (fit a x0 x1 y0 y1))%Qc /\ (0 <= snd (fit a x0 x1 y0 y1))%Qc).
Context (width : 0 <= FWHM / 2 /\ 2 * (FWHM / 2) + 1 <= H /\ 2 * (FWHM / 2) + 1 <= W).
Lemma position_pos r p x y : inside H W p -> position H W fit FWHM r p = Some (x, y) -> (0 <= x)%Qc /\ (0 <= y)%Qc /\ (exists z, x = fifths z) /\ (exists z, y = fifths z).
Proof.
  intros I E. assert (D : FWHM / 2 <= fst p /\ FWHM / 2 <= snd p).
  { destruct (Z.lt_ge_cases (fst p) (FWHM / 2)) as [L|L]; [rewrite position_edge in E by auto; discriminate|]. destruct (Z.lt_ge_cases (snd p) (FWHM / 2)) as [L2|L2]; [rewrite position_edge in E by auto; discriminate|]. auto. }
  unfold position in E. destruct (_ && _) in E; [|discriminate]. injection E as <- <-.
  assert (PP : forall k o, FWHM / 2 <= k -> (0 <= o)%Qc -> (0 <= fifths (qz (k - FWHM / 2) + o))%Qc).
  { intros k o L Ho. apply fifths_pos. replace 0%Qc with (0 + 0)%Qc by ring. apply Qcplus_le_compat; [|exact Ho]. change (num 0 <= num (k - FWHM / 2))%Qc. apply num_le. lia. }
  split; [apply PP; [lia|apply fit_right]|]. split; [apply PP; [lia|apply fit_right]|]. split; eexists; reflexivity.
Qed.
(** every beam kept is the response at the place of its key *)
Definition kept (l : list (Z * Z * image)) : Prop := forall k b, In (k, b) l ->
  b = response (bilinear H W ra (qz (fst k) / qz 5) (qz (snd k) / qz 5)) (bilinear H W dec (qz (fst k) / qz 5) (qz (snd k) / qz 5)).
Lemma cached_kept l k b : kept l -> cached k l = Some b -> b = response (bilinear H W ra (qz (fst k) / qz 5) (qz (snd k) / qz 5)) (bilinear H W dec (qz (fst k) / qz 5) (qz (snd k) / qz 5)).
Proof.
  intros K E. unfold cached in E. destruct (find _ l) as [[k' b']|] eqn:F; [|discriminate]. cbn in E. injection E as ->. apply find_some in F. destruct F as [I T]. cbn [fst] in T.
  unfold same_cell in T. apply andb_true_iff in T. destruct T as [A B]. apply Z.eqb_eq in A, B. destruct k as [k1 k2], k' as [k1' k2']. cbn [fst snd] in *. subst. exact (K _ _ I).
Qed.
Lemma placed_snoc comps a x y d : placed (comps ++ [(a, x, y)]) d = (placed comps d + a * overlap x y d)%Qc.
Proof. unfold placed. rewrite map_app, total_app. cbn [map total fst snd]. ring. Qed.

Definition good (comps : list (Qc * Qc * Qc)) (s : cstate) : Prop := subtracting H W gain response ra dec img comps (c_working s) /\ (forall d, c_cleaned s d = placed comps d) /\ kept (c_beams s).
Definition finished (r : image) : Prop := exists p, first_greatest H W r p /\ ((r p < 0)%Qc \/ (r p < sigma * deviation (listed H W r))%Qc).
Lemma values_listed a : values H W a = listed H W a.
Proof. unfold values, listed, cells. rewrite !upto_range. induction (range 0 H) as [|x l IH]; cbn [flat_map map concat]; [reflexivity|]. rewrite map_app, IH, map_map. reflexivity. Qed.
Lemma step_ok comps s : good comps s ->
  match clean_step H W fit response deviation ra dec FWHM gain sigma s with
  | Fails _ => True
  | Stops s' => exists more, good (comps ++ more) s' /\ (length more <= 1)%nat /\ finished (c_working s')
  | Goes s' => exists k, good (comps ++ [k]) s'
  end.
Proof.
  intros [HS [HP HK]]. unfold clean_step. destruct (peak_of H W (c_working s)) as [p|] eqn:P; [|exact Logic.I]. apply peak_first in P. pose proof (proj1 P) as I.
  destruct (position H W fit FWHM (c_working s) p) as [[x y]|] eqn:E; [|exact Logic.I]. destruct (position_pos _ _ _ _ I E) as [Px [Py [[zx Ex] [zy Ey]]]].
  destruct (qlt (c_working s p) 0) eqn:N.
  - exists []. rewrite app_nil_r. split; [split; [exact HS|split; [exact HP|exact HK]]|]. split; [auto|]. exists p. split; [exact P|]. left. apply qlt_iff, N.
  - apply qlt_false in N. cbn zeta. destruct (spread H W (gain * c_working s p) x y (c_cleaned s)) as [cleaned|e] eqn:SP; [|exact Logic.I].
    pose proof (spread_between _ _ _ _ _ _ _ Px Py SP) as B. unfold located. rewrite !interpolate_ok by exact B.
    set (k := (py_int (this (x * qz 5)%Qc), py_int (this (y * qz 5)%Qc))).
    assert (Kx : (qz (fst k) / qz 5)%Qc = x) by (unfold k; cbn [fst]; rewrite Ex; apply fifths_key). assert (Ky : (qz (snd k) / qz 5)%Qc = y) by (unfold k; cbn [snd]; rewrite Ey; apply fifths_key).
    set (bb := match cached k (c_beams s) with Some b => (b, c_beams s) | None => _ end).
    assert (HB : fst bb = response (bilinear H W ra x y) (bilinear H W dec x y) /\ kept (snd bb)).
    { unfold bb. destruct (cached k (c_beams s)) as [b|] eqn:CB; cbn [fst snd].
      - split; [|exact HK]. rewrite (cached_kept _ _ _ HK CB), Kx, Ky. reflexivity.
      - split; [reflexivity|]. intros k' b' [Hk|Hk]; [|apply HK, Hk]. injection Hk as <- <-. change (py_int (this (x * qz 5)%Qc), py_int (this (y * qz 5)%Qc)) with k. rewrite Kx, Ky. reflexivity. }
    destruct HB as [HB1 HB2]. set (working := fun c => (c_working s c - gain * c_working s p * fst bb c)%Qc).
    assert (G : good (comps ++ [((gain * c_working s p)%Qc, x, y)]) (mkC cleaned working (snd bb))).
    { split; [|split; [|exact HB2]]; cbn [c_working c_cleaned].
      - apply subtracting_next with (r := c_working s) (p := p); [exact HS|exact P|exact N|exact B|]. intros d _. unfold working. rewrite HB1. reflexivity.
      - destruct (spread_ok H W (gain * c_working s p)%Qc x y (c_cleaned s) B) as [b [SB SD]]. rewrite SP in SB. injection SB as ->. intro d. rewrite SD, HP, placed_snoc. reflexivity. }
    destruct (imax (values H W working)) as [m|] eqn:M; [|exact Logic.I]. destruct (qlt m (sigma * deviation (values H W working))) eqn:T; [|eexists; exact G].
    eexists. split; [exact G|]. split; [auto|]. cbn [c_working]. assert (HH : 0 < H /\ 0 < W) by (destruct I; lia). destruct (peak_found H W working) as [q Q]; [lia|lia|]. exists q. split; [apply peak_first, Q|]. right.
    apply qlt_iff in T. rewrite values_listed in T. eapply Qcle_lt_trans; [|exact T]. apply imax_spec in M. apply M. unfold values. apply in_map, cells_in. apply peak_first in Q. apply Q.
Qed.
Lemma loop_ok n : forall comps s s', good comps s -> clean_loop H W fit response deviation n ra dec FWHM gain sigma s = Ok s' ->
  exists more, good (comps ++ more) s' /\ (length more <= n)%nat /\ (length more = n \/ finished (c_working s')).
Proof.
  induction n as [|n IH]; intros comps s s' G E; cbn [clean_loop] in E.
  - injection E as <-. exists []. rewrite app_nil_r. auto.
  - pose proof (step_ok comps s G) as SO. destruct (clean_step H W fit response deviation ra dec FWHM gain sigma s) as [s1|s1|e]; [| |discriminate].
    + destruct SO as [k G1]. destruct (IH _ _ _ G1 E) as [more [G2 [L D]]]. exists (k :: more). rewrite <- app_assoc in G2. cbn [app] in G2. split; [exact G2|]. cbn [length]. split; [lia|]. destruct D as [D|D]; [left; lia|right; exact D].
    + injection E as <-. destruct SO as [more [G1 [L D]]]. exists more. split; [exact G1|]. split; [lia|right; exact D].
Qed.
End Loop.
Lemma greatest_imax (P : Z * Z -> bool) (a : image) H W m m' : greatest (fun c => inside H W c /\ P c = true) a m -> imax (map a (filter P (cells H W))) = Some m' -> m = m'.
Proof.
  intros [[c [[I PC] <-]] G] M. apply imax_spec in M. destruct M as [M1 M2]. apply in_map_iff in M1. destruct M1 as [d [Ed Hd]]. apply filter_In in Hd. destruct Hd as [Hd Pd]. apply cells_in in Hd.
  apply Qcle_antisym; [apply M2, in_map, filter_In; split; [apply cells_in, I|exact PC]|]. rewrite <- Ed. apply G. auto.
Qed.
Lemma greatest_values (a : image) H W m m' : greatest (inside H W) a m -> imax (values H W a) = Some m' -> m = m'.
Proof.
  intros [[c [I <-]] G] M. apply imax_spec in M. destruct M as [M1 M2]. unfold values in *. apply in_map_iff in M1. destruct M1 as [d [Ed Hd]]. apply cells_in in Hd.
  apply Qcle_antisym; [apply M2, in_map, cells_in, I|]. rewrite <- Ed. apply G, Hd.
Qed.
