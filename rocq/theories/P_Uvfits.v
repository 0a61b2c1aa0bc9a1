(** The loop of the UVFITS writer does what that of the FITS IDI writers does. *)
From Coq Require Import String.
From Coq Require Import List ZArith QArith Qabs Sorted Permutation Bool Lia Lqa.
From Verif Require Import M_Uvfits S_Idi S_Uvfits P_Base P_Vis P_Vis2 P_Idi P_Idi2.
Import ListNotations.
Open Scope Z_scope.

(** The number of UVFITS files for a number packed with 16 bits *)
Definition re (b : Z) : Z := merge_uvfits (Z.shiftr b 16) (Z.land b 65535).
Lemma re_ok : forall a b, 0 <= a < 65536 -> 0 <= b < 65536 -> re (merge_baseline a b 16) = merge_uvfits a b.
Proof.
  intros a b Ha Hb. unfold re, merge_baseline.
  assert (L : Z.land (Z.lor (Z.shiftl a 16) b) 65535 = b).
  { change 65535 with (Z.ones 16). rewrite Z.land_lor_distr_l, Z.land_ones by lia.
    rewrite Z.shiftl_mul_pow2, Z.mod_mul by lia. rewrite Z.land_ones, Z.mod_small by lia. apply Z.lor_0_l. }
  rewrite L. f_equal. rewrite Z.shiftr_lor, Z.shiftr_shiftl_l by lia. replace (16 - 16) with 0 by lia. rewrite Z.shiftl_0_r.
  rewrite (Z.shiftr_div_pow2 b), Z.div_small by lia. apply Z.lor_0_r.
Qed.

Lemma py_index_In : forall A (l : list A) k a, py_index l k = Ok a -> In a l.
Proof.
  intros A l k a. unfold py_index. destruct (nth_error l (Z.to_nat (if k <? 0 then k + zlen l else k))) as [x|] eqn:Ne; [|discriminate].
  destruct ((if k <? 0 then k + zlen l else k) <? 0); [discriminate|]. intro H. injection H as <-. eapply nth_error_In. eauto.
Qed.
Lemma take_incl : forall A (l : list A) idx r, take l idx = Ok r -> incl r l.
Proof.
  unfold take. intros A l idx. induction idx as [|k idx IH]; intros r H; simpl in H.
  - injection H as <-. intros x [].
  - destruct (py_index l k) as [a|e] eqn:K; simpl in H; [|discriminate].
    destruct (collect (map (py_index l) idx)) as [r'|e]; simpl in H; [|discriminate]. injection H as <-.
    intros x [<-|Ix]; [eapply py_index_In; eauto|apply (IH r'); auto].
Qed.

Section Same.
Context {V W U P : Type} (E : sky V W U P).
(** The writer of FITS IDI files without its conjugation and its rounding of the integration times *)
Definition plain : sky V W U P :=
  mkSky (fun v => v) (v32 E) (v0 E) (w32 E) (w1 E) (u32 E) (fun q => q) (utcjd E) (day0 E) (zenith_name E) (zenith_pos E) (uvw E).
Variables (m : option (list (Z * Z))) (stokes : list Z) (cols : Z) (tbl : list (str * P)).

Definition in_range (d : dataset V W P) : Prop :=
  forall b s, In b (d_bl d) -> mapped m (fst b) = Ok s \/ mapped m (snd b) = Ok s -> 0 <= s < 65536.

Lemma pack_same : forall b x, pack m 16 b = Ok x -> (forall s, mapped m (fst b) = Ok s \/ mapped m (snd b) = Ok s -> 0 <= s < 65536) ->
  pack_uv m b = Ok (re x).
Proof.
  intros b x H R. unfold pack in H. unfold pack_uv. destruct (mapped m (fst b)) as [s1|e]; [|discriminate]. cbn [bind] in *.
  destruct (mapped m (snd b)) as [s2|e]; [|discriminate]. cbn [bind] in *. injection H as <-. rewrite re_ok; auto.
Qed.
Lemma pack_list : forall l xs, collect (map (pack m 16) l) = Ok xs -> (forall b s, In b l -> mapped m (fst b) = Ok s \/ mapped m (snd b) = Ok s -> 0 <= s < 65536) ->
  collect (map (pack_uv m) l) = Ok (map re xs).
Proof.
  induction l as [|b l IH]; intros xs H R; simpl in H.
  - injection H as <-. reflexivity.
  - destruct (pack m 16 b) as [x|e] eqn:Pb; simpl in H; [|discriminate].
    destruct (collect (map (pack m 16) l)) as [ys|e] eqn:Pl; simpl in H; [|discriminate]. injection H as <-.
    simpl. rewrite (pack_same b x Pb) by (intros s; apply R; left; auto). rewrite (IH ys) by (auto; intros; eapply R; eauto; right; auto). reflexivity.
Qed.

Definition conv (R : Q) (u : uvdata V W U) : groups V U :=
  mkGr (map re (u_bl u)) (map (fun q => (q - R)%Q) (u_date u)) (u_time u) (u_int u) (u_uvw u) (u_src u) (u_flux u).
Definition rel (R : Q) (st : @loop V W U) (us : @uloop V U) : Prop :=
  ul_order us = l_order st /\ ul_mapped us = option_map (map re) (l_mapped st) /\ ul_mat us = option_map fst (l_mat st) /\
  (ul_ref us = Some R \/ ul_ref us = None) /\ ul_gr us = conv R (l_uv st).

Lemma map_rep : forall A B (f : A -> B) x n, map f (repeat x n) = repeat (f x) n.
Proof. induction n; simpl; congruence. Qed.

Lemma pass_same : forall R st us d st', rel R st us -> in_range d -> (ul_ref us = None -> day0 E (d_time d) = R) ->
  uv_pass plain m 16 stokes cols tbl st d = Ok st' ->
  exists us', uvf_pass E m stokes cols tbl us d = Ok us' /\ rel R st' us' /\
              (ul_ref us' = Some R \/ (ul_ref us' = ul_ref us /\ (nth_error stokes 0 <> Some (d_pol d)))).
Proof.
  intros R st us d st' (R1 & R2 & R3 & R4 & R5) Hr H0 H.
  unfold uv_pass in H. unfold uvf_pass. cbv zeta in *. rewrite R1, R2, R3, R5. change (bit_shift Uv) with 16.
  set (anew := bind (argsort m 16 (d_bl d)) (fun o => Ok (o, @None (list Z)))) in *.
  assert (O1 : forall o mp, (match l_order st with Some o => if zlen (d_vis d) =? zlen o then Ok (o, l_mapped st) else anew | None => anew end) = Ok (o, mp) ->
     (match l_order st with Some o => if zlen (d_vis d) =? zlen o then Ok (o, option_map (map re) (l_mapped st)) else anew | None => anew end) = Ok (o, option_map (map re) mp)).
  { intros o mp. assert (An : anew = Ok (o, mp) -> anew = Ok (o, option_map (map re) mp)).
    { unfold anew. destruct (argsort m 16 (d_bl d)); simpl; [|discriminate]. intro K. injection K as -> <-. reflexivity. }
    destruct (l_order st) as [o'|]; auto. destruct (zlen (d_vis d) =? zlen o'); auto. intro K. injection K as -> <-. reflexivity. }
  destruct (match l_order st with Some o => if zlen (d_vis d) =? zlen o then Ok (o, l_mapped st) else anew | None => anew end) as [[order mp]|e]; [|discriminate].
  rewrite (O1 order mp eq_refl). cbn [bind] in *. clear O1 anew.
  destruct (py_index stokes 0) as [stk0|e] eqn:Pk; [|discriminate]. cbn [bind] in *.
  assert (Ns : nth_error stokes 0 = Some stk0).
  { unfold py_index in Pk. simpl in Pk. destruct stokes; simpl in *; [discriminate|]. injection Pk as ->. reflexivity. }
  destruct (d_pol d =? stk0) eqn:Dp.
  - destruct (list_index str_eqb (src_name plain (d_src d) (d_time d)) (map fst tbl)) as [k|e] eqn:Li; [|discriminate]. cbn [bind] in *.
    change (src_name E (d_src d) (d_time d)) with (src_name plain (d_src d) (d_time d)). rewrite Li. cbn [bind].
    change (uvw plain) with (uvw E) in H.
    match type of H with bind (bind ?w _) _ = _ => destruct w as [uvws|e]; [|discriminate] end. cbn [bind] in *.
    assert (M1 : forall l, (match mp with Some l => Ok l | None => bind (take (d_bl d) order) (fun bl => collect (map (pack m 16) bl)) end) = Ok l ->
       (match option_map (map re) mp with Some l => Ok l | None => bind (take (d_bl d) order) (fun bl => collect (map (pack_uv m) bl)) end) = Ok (map re l)).
    { intros l. destruct mp as [l'|]; cbn [option_map]; [intro K; injection K as ->; reflexivity|].
      destruct (take (d_bl d) order) as [bl|e] eqn:Tk; [|discriminate]. cbn [bind]. intro K. apply pack_list; auto.
      intros b s Ib. apply Hr. apply (take_incl _ _ _ _ Tk). auto. }
    destruct (match mp with Some l => Ok l | None => bind (take (d_bl d) order) (fun bl => collect (map (pack m 16) bl)) end) as [l|e]; [|discriminate].
    rewrite (M1 l eq_refl). cbn [bind] in *. clear M1.
    destruct (take uvws order) as [uvs|e]; [|discriminate]. cbn [bind] in *.
    destruct (take (d_vis d) order) as [vis|e]; [|discriminate]. cbn [bind] in *.
    destruct (list_index Z.eqb (d_pol d) stokes) as [i|e]; [|discriminate]. cbn [bind] in *.
    change (v0 plain) with (v0 E) in H. change (map (map (fun v => v32 plain (conj plain v))) vis) with (map (map (v32 E)) vis) in H.
    destruct (set_columns i (zlen stokes) cols (map (fun _ => repeat (v0 E) (Z.to_nat (zlen stokes * cols))) order) (map (map (v32 E)) vis)) as [mv|e]; [|discriminate]. cbn [bind] in *.
    match type of H with bind ?w _ = _ => destruct w as [mw|e]; [|discriminate] end. cbn [bind] in H. injection H as <-.
    assert (Rf : match ul_ref us with Some q => q | None => day0 E (d_time d) end = R).
    { destruct R4 as [R4|R4]; rewrite R4; auto. }
    rewrite Rf. eexists. split; [reflexivity|]. split; [|left; reflexivity].
    split; [reflexivity|]. split; [reflexivity|]. split; [reflexivity|]. split; [left; reflexivity|]. cbn [l_uv ul_gr].
    destruct (d_pol d =? last stokes 0); unfold conv; cbn [u_bl u_date u_time u_int u_uvw u_src u_flux gr_bl gr_date gr_day gr_int gr_uvw gr_src gr_vis];
      rewrite !map_app, map_rep; reflexivity.
  - cbn [bind] in *. destruct (take (d_vis d) order) as [vis|e]; [|discriminate]. cbn [bind] in *.
    destruct (l_mat st) as [[mv0 mw0]|]; [|discriminate]. cbn [option_map fst].
    destruct (list_index Z.eqb (d_pol d) stokes) as [i|e]; [|discriminate]. cbn [bind] in *.
    change (map (map (fun v => v32 plain (conj plain v))) vis) with (map (map (v32 E)) vis) in H.
    destruct (set_columns i (zlen stokes) cols mv0 (map (map (v32 E)) vis)) as [mv|e]; [|discriminate]. cbn [bind] in *.
    match type of H with bind ?w _ = _ => destruct w as [mw|e]; [|discriminate] end. cbn [bind] in H. injection H as <-.
    eexists. split; [reflexivity|]. split.
    + split; [reflexivity|]. split; [reflexivity|]. split; [reflexivity|]. split; [exact R4|]. cbn [l_uv ul_gr].
      destruct (d_pol d =? last stokes 0); unfold conv; cbn [u_bl u_date u_time u_int u_uvw u_src u_flux gr_bl gr_date gr_day gr_int gr_uvw gr_src gr_vis];
      rewrite ?map_app; reflexivity.
    + right. split; [reflexivity|]. rewrite Ns. apply Z.eqb_neq in Dp. congruence.
Qed.

Lemma loop_same : forall R l st us st', rel R st us -> Forall in_range l ->
  (ul_ref us = Some R \/ (ul_ref us = None /\ match l with [] => False | d :: _ => nth_error stokes 0 = Some (d_pol d) /\ day0 E (d_time d) = R end)) ->
  uv_loop (uv_pass plain m 16 stokes cols tbl) l st = Ok st' ->
  exists us', uvf_loop (uvf_pass E m stokes cols tbl) l us = Ok us' /\ rel R st' us' /\ ul_ref us' = Some R.
Proof.
  intros R l. induction l as [|d l IH]; intros st us st' Hr F H0 H; cbn [uv_loop uvf_loop] in *.
  - injection H as <-. exists us. split; [reflexivity|]. split; [exact Hr|]. destruct H0 as [H0|(_ & [])]. exact H0.
  - inversion F as [|? ? F1 F2]; subst. destruct (uv_pass plain m 16 stokes cols tbl st d) as [st1|e] eqn:Pe; [|discriminate]. cbn [bind] in H.
    destruct (pass_same R st us d st1 Hr F1) as (us1 & P1 & P2 & P3); [|exact Pe|].
    { intro N. destruct H0 as [H0|(_ & _ & H0)]; [congruence|exact H0]. }
    rewrite P1. cbn [bind]. apply (IH st1 us1 st'); auto. left.
    destruct P3 as [P3|(P3 & P4)]; [exact P3|]. destruct H0 as [H0|(_ & H0 & _)]; [congruence|contradiction].
Qed.
End Same.
