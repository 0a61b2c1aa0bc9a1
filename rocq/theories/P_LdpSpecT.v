(** Final forms of the DR spectrometer file property (C74). *)
From Coq Require Import List ZArith Lia Bool QArith Qabs.
From Verif Require Import M_LdpSpec S_Drspec S_DrspecRun S_LdpSpec P_Drx P_Drx2 P_Cor P_Drspec P_DrspecT P_LdpReady P_LdpSpec P_LdpSpec2 P_Num LibBytes LibList.
Import ListNotations.
Open Scope Z_scope.
Ltac Zify.zify_post_hook ::= Z.div_mod_to_equations.

Lemma drs_bytes_ok : forall r, bytes_ok (drs_bytes r).
Proof.
  intro r. unfold drs_bytes, drs_head_chunks. apply bytes_ok_app. split.
  - apply Forall_concat. repeat (apply Forall_app; split); repeat (apply Forall_cons; [apply le_ok|]); try apply Forall_nil;
      apply Forall_forall; intros x Hx; apply in_map_iff in Hx; destruct Hx as (? & <- & _); apply le_ok.
  - apply Forall_forall. intros x Hx. apply in_flat_map in Hx. destruct Hx as (v & _ & Hx). pose proof (le_ok 4 v) as L. unfold bytes_ok in L. rewrite Forall_forall in L. auto.
Qed.
Lemma bytes_all_ok : forall rs, bytes_ok (flat_map drs_bytes rs).
Proof. intro rs. apply Forall_forall. intros x Hx. apply in_flat_map in Hx. destruct Hx as (v & _ & Hx). pose proof (drs_bytes_ok v) as L. unfold bytes_ok in L. rewrite Forall_forall in L. auto. Qed.
Lemma no_jump_chain : forall r0 rs r, no_jump (frame_tint r0) (r :: rs) -> chain r0 (frame_time r) rs.
Proof.
  intros r0 rs. induction rs as [|r' rs IH]; intros r H; [exact I|]. cbn [no_jump] in H. destruct H as [H1 H2]. cbn [chain]. split; auto.
Qed.
Lemma last_time_last : forall rs r t, last_time t (r :: rs) = frame_time (last rs r).
Proof.
  intros rs. induction rs as [|r' rs IH]; intros r t; [reflexivity|].
  change (last_time t (r :: r' :: rs)) with (last_time (frame_time r) (r' :: rs)). rewrite IH.
  f_equal. destruct rs as [|x rs]; [reflexivity|]. change (last (r' :: x :: rs) r) with (last (x :: rs) r).
  clear. revert x. induction rs as [|y rs IH]; intro x; [reflexivity|]. cbn [last] in *. apply IH.
Qed.
Lemma open_rec : forall junk r0 rs tail, recording r0 rs -> rs <> [] -> bytes_ok junk -> bytes_ok tail -> no_header junk (flat_map drs_bytes (r0 :: rs) ++ tail) ->
  spec_open (junk ++ flat_map drs_bytes (r0 :: rs) ++ tail) = Ok (mkSO (mkFile (junk ++ flat_map drs_bytes (r0 :: rs) ++ tail) (zlen junk)) (desc_of r0) None).
Proof.
  intros junk r0 rs tail R NE BJ BT NH. destruct rs as [|r1 rs]; [congruence|]. cbn [flat_map] in *. rewrite <- !app_assoc in *.
  inversion R as [|? ? [G0 _] R1]; subst. inversion R1 as [|? ? F1 R2]; subst. rewrite open_good; auto.
  - apply bytes_ok_app; split; [exact BJ|]. apply bytes_ok_app; split; [apply drs_bytes_ok|]. apply bytes_ok_app; split; [apply drs_bytes_ok|]. apply bytes_ok_app; split; [apply bytes_all_ok|exact BT].
  - apply F1.
  - apply (fits_len r0 r1 F1).
Qed.

(** C74: opening a recording of two frames or more, after any bytes without a frame header, and any sequence of
    reads: every frame is returned once, in order, each spectrum in the row of its tuning and product,
    with the time of the first frame; then EOFError. *)
Lemma C74_spec_reads_proof : forall junk r0 rs ign ns, recording r0 rs -> rs <> [] ->
  bytes_ok junk -> no_header junk (flat_map drs_bytes (r0 :: rs)) ->
  ign = true \/ no_jump (frame_tint r0) (r0 :: rs) -> Forall (fun n => 0 <= n) ns ->
  exists s, spec_open (junk ++ flat_map drs_bytes (r0 :: rs)) = Ok s /\ spec_reads ign ns s = returned r0 ns (r0 :: rs).
Proof.
  intros junk r0 rs ign ns R NE BJ NH HC HN. pose proof (open_rec junk r0 rs [] R NE BJ (Forall_nil _)) as O. rewrite !app_nil_r in O.
  eexists. split; [apply O; auto|]. inversion R as [|? ? [G0 _] R1]; subst. apply (in_order r0 G0); auto.
  destruct HC as [HC|HC]; auto. right. cbn [ready_for]. apply no_jump_chain. auto.
Qed.

Definition dm (k : Z) : drs_rec :=
  mkDrs (286700000000000000 + k * 184320) 7 10 [222333444; 1111222233] [1000; 900; 800; 2 ^ 20] [0; 1; 0; 255] 3 9 2 0 6144 [0; 5; 0; 7]
    (map (fun i => map (fun j => 1000 * i + j) (zseq 1 2)) (zseq 0 3))
    (map (fun i => map (fun j => 2 ^ 31 + 1000 * i + j) (zseq 1 2)) (zseq 0 3)).
Lemma dm_good : forall k, 0 <= 286700000000000000 + k * 184320 < 2 ^ 64 -> good_frame (dm k) /\ forall j, same_setup (dm j) (dm k).
Proof.
  intros k H. assert (D := demo_drs_ok 9 2 ltac:(cbn; auto)). split; [|intro j; repeat split].
  split; [|split; [cbn; tauto|split; [vm_compute; reflexivity|]]].
  - unfold drs_ok in *. destruct D as (_ & D). split; [exact H|]. exact D.
  - intros t b Ht Hb. destruct Ht as [-> | ->]; cbn in Hb; repeat (destruct Hb as [<-|Hb]; [vm_compute; reflexivity|]); contradiction.
Qed.
Lemma dm_recording : recording (dm 0) [dm 1; dm 2; dm 3; dm 4].
Proof. unfold recording. repeat (apply Forall_cons; [split; apply dm_good; cbn; lia|]). apply Forall_nil. Qed.
Lemma sync_first : forall r, exists X, drs_bytes r = [222; 192; 222; 192] ++ X.
Proof. intro r. unfold drs_bytes, drs_head_chunks. change (le 4 3235823838) with [222; 192; 222; 192]. cbn [concat app]. eexists. reflexivity. Qed.
Lemma no_header_5 : forall rs, no_header [1; 2; 3; 4; 5] (flat_map drs_bytes (dm 0 :: rs)).
Proof.
  intros rs i Hi [H _]. cbn [flat_map] in H. assert (E : i = 0 \/ i = 1 \/ i = 2 \/ i = 3 \/ i = 4) by (unfold zlen in Hi; cbn [length] in Hi; lia).
  destruct (sync_first (dm 0)) as [X EX]. rewrite EX in H. clear - E H. rewrite <- !app_assoc in H. revert H. generalize (X ++ flat_map drs_bytes rs). intros Y H.
  destruct E as [->|[->|[->|[->| ->]]]]; vm_compute in H; discriminate H.
Qed.
Lemma C74_spec_reads_example_proof :
  recording (dm 0) [dm 1; dm 2; dm 3; dm 4] /\ no_header [1; 2; 3; 4; 5] (flat_map drs_bytes [dm 0; dm 1; dm 2; dm 3; dm 4]) /\
  no_jump (frame_tint (dm 0)) [dm 0; dm 1; dm 2; dm 3; dm 4] /\
  map (fun o => match o with Ok (n, t, a) => Some (n, t, length a) | Raise _ => None end) (returned (dm 0) [2; 0; 7; 3] [dm 0; dm 1; dm 2; dm 3; dm 4]) =
    [Some (2%nat, Some 286699999999999993, 4%nat); Some (1%nat, Some 286700000000368633, 4%nat); Some (2%nat, Some 286700000000552953, 4%nat); None].
Proof. split; [exact dm_recording|]. split; [apply no_header_5|]. split; [cbn; lia|vm_compute; reflexivity]. Qed.

(** C74: with frames one integration time apart, offset moves by the nearest whole number of integrations, forward or
    back, says by how much, and the next reads return the frames from there. *)
Lemma C74_spec_offset_proof : forall junk r0 rs ign ns o1 o2 fuel, recording r0 rs -> rs <> [] ->
  bytes_ok junk -> no_header junk (flat_map drs_bytes (r0 :: rs)) ->
  (forall j, 0 <= j < zlen (r0 :: rs) -> frame_time (znth r0 j (r0 :: rs)) = frame_time r0 + j * frame_tint r0) ->
  let k1 := py_round (o1 / inject_Z (frame_tint r0)) in
  let k2 := py_round (o2 / inject_Z (frame_tint r0)) in
  0 <= k1 < zlen (r0 :: rs) -> 0 <= k1 + k2 < zlen (r0 :: rs) -> Forall (fun n => 0 <= n) ns ->
  exists s s1 s2, spec_open (junk ++ flat_map drs_bytes (r0 :: rs)) = Ok s /\
    spec_offset (S fuel) o1 s = (s1, Ok (k1 * frame_tint r0, true)) /\
    spec_offset (S fuel) o2 s1 = (s2, Ok (k2 * frame_tint r0, true)) /\
    spec_reads ign ns s2 = returned r0 ns (skipn (Z.to_nat (k1 + k2)) (r0 :: rs)).
Proof.
  intros junk r0 rs ign ns o1 o2 fuel R NE BJ NH TS k1 k2 K1 K2 HN. pose proof (open_rec junk r0 rs [] R NE BJ (Forall_nil _)) as O. rewrite !app_nil_r in O.
  inversion R as [|? ? [G0 _] R1]; subst.
  pose proof (offset_good r0 G0 junk (r0 :: rs) [] 0 o1 (S fuel) None R ltac:(lia) TS) as OF1. cbv zeta in OF1. fold k1 in OF1.
  pose proof (zlen_nonneg rs) as ZR. rewrite zlen_cons in *. rewrite !app_nil_r in OF1. specialize (OF1 ltac:(lia) ltac:(lia)).
  pose proof (offset_good r0 G0 junk (r0 :: rs) [] k1 o2 (S fuel) None R ltac:(lia)) as OF2. rewrite zlen_cons in OF2. specialize (OF2 TS). cbv zeta in OF2. fold k2 in OF2.
  rewrite !app_nil_r in OF2. specialize (OF2 ltac:(lia) ltac:(lia)). clearbody k1 k2.
  do 3 eexists. split; [apply O; auto|]. split; [rewrite Z.mul_0_l, !Z.add_0_r in OF1; exact OF1|]. split; [rewrite Z.add_0_l; exact OF2|].
  set (m := Z.to_nat (k1 + k2)).
  assert (SP : bytes (r0 :: rs) = bytes (firstn m (r0 :: rs)) ++ bytes (skipn m (r0 :: rs))) by (rewrite <- bytes_app, firstn_skipn; reflexivity).
  pose proof (forall_skip m (r0 :: rs) _ R) as [RF RS].
  assert (LM : zlen (bytes (firstn m (r0 :: rs))) = (k1 + k2) * drs_len r0).
  { rewrite (bytes_zlen r0) by exact RF. unfold zlen at 1. rewrite firstn_length_le by (unfold m; unfold zlen in K2; cbn [length]; clear - K2; lia). unfold m. rewrite Z2Nat.id by lia. ring. }
  rewrite SP. rewrite app_assoc. replace (zlen junk + (k1 + k2) * drs_len r0) with (zlen (junk ++ bytes (firstn m (r0 :: rs)))) by (rewrite zlen_app; lia).
  apply (in_order r0 G0); auto. right. cbn [ready_for].
  assert (ST : forall l i, (forall j, 0 <= j < zlen l -> frame_time (znth r0 j l) = frame_time r0 + (i + j) * frame_tint r0) ->
     match l with [] => True | r :: l' => chain r0 (frame_time r) l' end).
  { clear - G0. assert (T0 : 0 < frame_tint r0) by (apply (good_ok r0 G0)). intros l. induction l as [|r l IH]; intros i H; [exact I|].
    destruct l as [|r' l]; [exact I|]. cbn [chain]. split.
    - pose proof (H 0 ltac:(rewrite !zlen_cons; pose proof (zlen_nonneg l); lia)) as E0. pose proof (H 1 ltac:(rewrite !zlen_cons; pose proof (zlen_nonneg l); lia)) as E1.
      change (znth r0 0 (r :: r' :: l)) with r in E0. change (znth r0 1 (r :: r' :: l)) with r' in E1. lia.
    - apply (IH (i + 1)). intros j Hj. rewrite <- Z.add_assoc. rewrite <- H by (rewrite zlen_cons; lia).
      unfold znth. destruct (Z.ltb_spec j 0); [lia|]. destruct (Z.ltb_spec (1 + j) 0); [lia|]. replace (Z.to_nat (1 + j)) with (S (Z.to_nat j)) by lia. reflexivity. }
  apply (ST (skipn m (r0 :: rs)) (k1 + k2)). intros j Hj.
  assert (LS : zlen (skipn m (r0 :: rs)) = 1 + zlen rs - (k1 + k2)).
  { unfold zlen in *. rewrite skipn_length. unfold m. cbn [length]. lia. }
  rewrite <- TS by lia. f_equal. unfold znth. destruct (Z.ltb_spec j 0); [lia|]. destruct (Z.ltb_spec (k1 + k2 + j) 0); [lia|].
  replace (Z.to_nat (k1 + k2 + j)) with (m + Z.to_nat j)%nat by (unfold m; lia).
  clear. revert j. generalize (r0 :: rs). intros l j. generalize (Z.to_nat j). clear j. intro j. revert l. induction m as [|m IH]; intro l; [reflexivity|]. destruct l as [|x l]; [destruct j; reflexivity|]. cbn [skipn Nat.add nth]. apply IH.
Qed.
Lemma C74_spec_offset_example_proof :
  (forall j, 0 <= j < zlen [dm 0; dm 1; dm 2; dm 3; dm 4] -> frame_time (znth (dm 0) j [dm 0; dm 1; dm 2; dm 3; dm 4]) = frame_time (dm 0) + j * frame_tint (dm 0)) /\
  py_round (inject_Z 500000 / inject_Z (frame_tint (dm 0))) = 3 /\ py_round (inject_Z (-200000) / inject_Z (frame_tint (dm 0))) = -1.
Proof.
  split; [|split; vm_compute; reflexivity]. intros j Hj. assert (E : j = 0 \/ j = 1 \/ j = 2 \/ j = 3 \/ j = 4) by (unfold zlen in Hj; cbn [length] in Hj; lia).
  destruct E as [->|[->|[->|[->| ->]]]]; vm_compute; reflexivity.
Qed.

(** C74: whatever the file holds, an offset that returns without giving up read a frame whose time is the returned offset
    from the starting frame, within one of that frame's integration times of the offset asked for; the
    file is positioned on it if it has the described size. *)
Lemma C74_spec_offset_near_proof : forall fuel o s s' d, spec_offset fuel o s = (s', Ok (d, true)) ->
  exists x0 x g f1 l, snd (read_drspec (so_fh s)) = Got x0 /\ read_drspec g = (f1, Got x) /\
    d = (s_tag (sf_head x) - s_toff (sf_head x)) - (s_tag (sf_head x0) - s_toff (sf_head x0)) /\
    transform_size x = Ok l /\ (Qabs (inject_Z d - o) <= inject_Z (Z.abs (s_nints (sf_head x) * l * s_dec (sf_head x))))%Q /\
    exists f2, f_seek (- sd_size (so_desc s)) 1 f1 = (f2, None) /\ so_fh s' = fst (spec_describe f2) /\ so_tag s' = None.
Proof.
  intros fuel o s s' d H. unfold spec_offset in H. destruct (read_drspec (so_fh s)) as [f1 [x0| |loc]] eqn:ER; try discriminate H.
  destruct (f_seek (- sd_size (so_desc s)) 1 f1) as [f2 [e|]]; [discriminate H|].
  destruct (sd_tint (so_desc s) =? 0); [discriminate H|].
  destruct (f_seek _ 1 f2) as [f3 [e|]]; [discriminate H|].
  destruct (offset_loop fuel (so_desc s) (sf_time x0) o f3 []) as [f4 [[t fine]|e]] eqn:EL; [|discriminate H].
  destruct (spec_describe f4) as [f5 [d'|e]] eqn:ED; [|discriminate H]. injection H as <- <- ->.
  destruct (loop_near _ _ _ _ _ _ _ _ EL) as (g & x & f1' & l & R & S1 & T & L & Q). exists x0, x, g, f1', l.
  subst t. split; [reflexivity|]. split; [exact R|]. split; [reflexivity|]. split; [exact L|]. split.
  - unfold Z.sub at 1. rewrite inject_Z_plus, inject_Z_opp. exact Q.
  - exists f4. split; [exact S1|]. rewrite ED. split; reflexivity.
Qed.

(** C74 refuted: at a frame with a damaged header, reading stops moving: every further read returns nothing
    (duration 0, no time, zeros) and never raises, whatever follows in the file. *)
Lemma C74_spec_damaged_refuted_proof : forall junk r0 rs bad ign, recording r0 rs -> rs <> [] ->
  bytes_ok junk -> bytes_ok bad -> no_header junk (flat_map drs_bytes (r0 :: rs) ++ bad) ->
  ign = true \/ no_jump (frame_tint r0) (r0 :: rs) -> 76 <= zlen bad -> ~ header_at bad 0 ->
  exists s s1, spec_open (junk ++ flat_map drs_bytes (r0 :: rs) ++ bad) = Ok s /\
    spec_read ign (zlen (r0 :: rs)) s = (s1, Ok (length (r0 :: rs), Some (frame_time r0), spectra (q_format r0) (q_nfreq r0) (length (r0 :: rs)) (r0 :: rs))) /\
    forall ns, Forall (fun n => 1 <= n) ns ->
      spec_reads ign ns s1 = map (fun n => Ok (0%nat, None, spectra (q_format r0) (q_nfreq r0) (Z.to_nat n) [])) ns.
Proof.
  intros junk r0 rs bad ign R NE BJ BB NH HC LB NB. inversion R as [|? ? [G0 _] R1]; subst. set (all := r0 :: rs) in *.
  assert (AS : asked (zlen all) = length all). { unfold asked, all. rewrite zlen_cons. unfold zlen. cbn [length]. lia. }
  assert (FA : firstn (length all) all = all) by apply firstn_all.
  pose proof (zlen_nonneg all) as ZA.
  pose proof (read_step r0 G0 ign (zlen all) junk bad None r0 rs ZA R) as ST. fold all in ST. rewrite AS, FA in ST.
  do 2 eexists. split; [apply open_rec; auto|]. split.
  - apply ST; [|left; lia]. destruct HC as [HC|HC]; auto. right. unfold all. cbn [chain]. split; [destruct G0 as (_ & _ & T0 & _); lia|]. apply no_jump_chain. auto.
  - intros ns HN. fold (bytes all).
    assert (PB : read_drspec (mkFile (junk ++ bytes all ++ bad) (zlen (junk ++ bytes all))) = (mkFile (junk ++ bytes all ++ bad) (zlen (junk ++ bytes all)), BadSync (zlen (junk ++ bytes all)))).
    { rewrite app_assoc. apply bad_header.
      - apply bytes_ok_app. split; auto. apply bytes_ok_app. split; auto. apply bytes_all_ok.
      - apply zlen_nonneg.
      - rewrite (zlen_app (junk ++ bytes all)). lia.
      - intros [H1 H2]. apply NB. rewrite slice_app_r in H1, H2 by lia. rewrite Z.sub_diag in H1. replace (zlen (junk ++ bytes all) + 72 - zlen (junk ++ bytes all)) with (0 + 72) in H2 by lia. split; auto. }
    rewrite (stuck _ _ _ _ _ _ PB); auto.
    + apply map_ext. intro n. do 2 f_equal. apply (array_good r0 (Z.to_nat n) []). constructor.
    + apply (good_ok r0 G0).
    + cbn [f_pos f_data]. rewrite app_assoc, (zlen_app (junk ++ bytes all)). lia.
Qed.
Lemma C74_spec_damaged_example_proof : 76 <= zlen (repeat 0 124) /\ ~ header_at (repeat 0 124) 0 /\ recording (dm 0) [dm 1; dm 2; dm 3; dm 4] /\
  no_header [1; 2; 3; 4; 5] (flat_map drs_bytes [dm 0; dm 1; dm 2; dm 3; dm 4] ++ repeat 0 124).
Proof.
  split; [vm_compute; discriminate|]. split; [intros [H _]; vm_compute in H; discriminate H|]. split; [exact dm_recording|].
  intros i Hi [H _]. assert (E : i = 0 \/ i = 1 \/ i = 2 \/ i = 3 \/ i = 4) by (unfold zlen in Hi; cbn [length] in Hi; lia).
  cbn [flat_map] in H. destruct (sync_first (dm 0)) as [X EX]. rewrite EX in H. clear - E H. rewrite <- !app_assoc in H. revert H. generalize (X ++ drs_bytes (dm 1) ++ drs_bytes (dm 2) ++ drs_bytes (dm 3) ++ drs_bytes (dm 4) ++ [] ++ repeat 0 124). intros Y H.
  destruct E as [->|[->|[->|[->| ->]]]]; vm_compute in H; discriminate H.
Qed.

(** C74 refuted: after a jump in time by more than 1.001 integration times nothing can be read any more: each read raises
    RuntimeError and uses up one frame, although the frames after the jump are in step. *)
Lemma C74_spec_gap_refuted_proof : forall junk r0 rs more ns, recording r0 (rs ++ more) -> rs <> [] ->
  bytes_ok junk -> no_header junk (flat_map drs_bytes (r0 :: rs ++ more)) -> no_jump (frame_tint r0) (r0 :: rs) ->
  Forall (fun r => 1001 * frame_tint r0 < 1000 * (frame_time r - frame_time (last rs r0))) more -> Forall (fun n => 0 <= n) ns ->
  exists s, spec_open (junk ++ flat_map drs_bytes (r0 :: rs ++ more)) = Ok s /\
    spec_reads false (zlen (r0 :: rs) :: ns) s =
    Ok (length (r0 :: rs), Some (frame_time r0), spectra (q_format r0) (q_nfreq r0) (length (r0 :: rs)) (r0 :: rs)) ::
    map (fun k => if (k <? length more)%nat then Raise RuntimeError else Raise EOFError) (seq 0 (length ns)).
Proof.
  intros junk r0 rs more ns R NE BJ NH NJ HJ HN. pose proof (open_rec junk r0 (rs ++ more) [] R) as O. rewrite !app_nil_r in O.
  eexists. split; [apply O; auto; [intro E; apply app_eq_nil in E; tauto|constructor]|].
  pose proof R as R'. unfold recording in R'. rewrite app_comm_cons in R'. apply Forall_app in R'. destruct R' as [RA RB].
  inversion R as [|? ? [G0 _] R1]; subst.
  assert (AS : asked (zlen (r0 :: rs)) = length (r0 :: rs)). { unfold asked. rewrite zlen_cons. unfold zlen. cbn [length]. lia. }
  assert (FA : firstn (length (r0 :: rs)) (r0 :: rs) = r0 :: rs) by apply firstn_all.
  pose proof (read_step r0 G0 false (zlen (r0 :: rs)) junk (bytes more) None r0 rs (zlen_nonneg _) RA) as ST. rewrite AS, FA in ST.
  assert (EB : flat_map drs_bytes (r0 :: rs ++ more) = bytes (r0 :: rs) ++ bytes more) by (rewrite app_comm_cons; apply bytes_app).
  rewrite EB. cbn [spec_reads]. unfold desc_of. rewrite ST; [|right|left; lia].
  - f_equal. rewrite app_assoc. apply (after_jump r0 G0); auto.
    eapply Forall_impl; [|exact HJ]. intros r Hr. cbv beta in Hr.
    rewrite last_time_last. exact Hr.
  - cbn [chain]. split; [destruct G0 as (_ & _ & T0 & _); lia|]. apply no_jump_chain. auto.
Qed.
Lemma C74_spec_gap_example_proof : recording (dm 0) ([dm 1; dm 2] ++ [dm 5; dm 6]) /\ no_header [1; 2; 3; 4; 5] (flat_map drs_bytes [dm 0; dm 1; dm 2; dm 5; dm 6]) /\
  no_jump (frame_tint (dm 0)) [dm 0; dm 1; dm 2] /\
  Forall (fun r => 1001 * frame_tint (dm 0) < 1000 * (frame_time r - frame_time (last [dm 1; dm 2] (dm 0)))) [dm 5; dm 6].
Proof.
  split; [unfold recording; repeat (apply Forall_cons; [split; apply dm_good; cbn; lia|]); apply Forall_nil|]. split; [apply no_header_5|]. split; [cbn; lia|].
  repeat (apply Forall_cons; [cbn; lia|]). apply Forall_nil.
Qed.

(** C74 refuted: a recording with a single frame cannot be opened. *)
Lemma C74_spec_single_refuted_proof : forall junk r0, recording r0 [] -> bytes_ok junk -> no_header junk (drs_bytes r0) ->
  spec_open (junk ++ drs_bytes r0) = Raise EOFError.
Proof.
  intros junk r0 R BJ NH. inversion R as [|? ? [G0 _] _]; subst. apply open_single; auto; [|apply G0].
  apply bytes_ok_app. split; auto. apply drs_bytes_ok.
Qed.
Lemma C74_spec_single_example_proof : recording (dm 0) [] /\ no_header [1; 2; 3; 4; 5] (drs_bytes (dm 0)).
Proof.
  split; [apply Forall_cons; [split; apply dm_good; cbn; lia|apply Forall_nil]|]. pose proof (no_header_5 []) as H. cbn [flat_map] in H. rewrite app_nil_r in H. exact H.
Qed.

(** ** The end of an interrupted recording *)
Lemma read_short : forall a r cut, drs_ok r -> (exists rest, drs_bytes r = cut ++ rest /\ rest <> []) ->
  read_drspec (mkFile (a ++ cut) (zlen a)) = (mkFile (a ++ cut) (zlen (a ++ cut)), AtEOF).
Proof.
  intros a r cut W (rest & E & NE). assert (LB := drs_bytes_zlen r W). rewrite E, zlen_app in LB.
  assert (RP : 0 < zlen rest). { destruct rest; [congruence|]. rewrite zlen_cons. pose proof (zlen_nonneg rest). lia. }
  unfold read_drspec, f_read. cbn [f_data f_pos]. change (76 <? 0) with false. cbv iota. rewrite zdrop_app_exact.
  destruct (Z.eqb_spec (zlen (ztake 76 cut)) 76) as [L76|S76]; cbn [negb].
  - rewrite zlen_ztake in L76 by lia.
    assert (HD : ztake 76 cut = concat (drs_head_chunks r)).
    { transitivity (ztake 76 (drs_bytes r)); [rewrite E; symmetry; apply ztake_app_le; lia|].
      unfold drs_bytes. rewrite <- (drs_head_zlen r W). apply ztake_app_exact. }
    rewrite HD, drs_head_ok by auto. fold (head_for r). cbn [head_for s_magic1 s_magic2 s_format s_nfreq].
    change ((3235823838 =? 3235823838) && (3977047308 =? 3977047308))%bool with true. cbn [negb].
    assert (HF : 0 <= q_format r < 256) by apply W. destruct (products_ok _ HF) as [_ ->].
    assert (NN : 0 <= 4 * (zlen (products (q_format r)) * 2) * q_nfreq r).
    { pose proof (zlen_nonneg (products (q_format r))). pose proof (zlen_nonneg (q_spec0 r)). unfold q_nfreq. nia. }
    destruct (Z.ltb_spec (4 * (zlen (products (q_format r)) * 2) * q_nfreq r) 0); [lia|].
    rewrite drs_head_zlen by auto. replace (zlen a + 76) with (76 + zlen a) by lia.
    rewrite <- (zdrop_zdrop 76 (zlen a)) by (solve [apply zlen_nonneg|lia]). rewrite zdrop_app_exact.
    unfold drs_len in LB. rewrite ztake_all by (rewrite zlen_zdrop by lia; lia). rewrite zlen_zdrop by lia.
    destruct (Z.eqb_spec (Z.max 0 (zlen cut - 76)) (4 * (zlen (products (q_format r)) * 2) * q_nfreq r)); [lia|]. cbn [negb].
    do 2 f_equal. rewrite zlen_app. lia.
  - rewrite zlen_ztake in S76 by lia. rewrite ztake_all by lia. do 2 f_equal. rewrite zlen_app. reflexivity.
Qed.
(** C74 refuted: when the last frame is incomplete, a read that starts there returns nothing (duration 0, no time, zeros)
    instead of EOFError; the read after it raises EOFError. *)
Lemma C74_spec_cut_refuted_proof : forall junk r0 rs r cut rest ign n ns, recording r0 rs -> rs <> [] ->
  bytes_ok junk -> drs_ok r -> drs_bytes r = cut ++ rest -> cut <> [] -> rest <> [] -> no_header junk (flat_map drs_bytes (r0 :: rs) ++ cut) ->
  ign = true \/ no_jump (frame_tint r0) (r0 :: rs) -> 0 <= n -> Forall (fun n => 0 <= n) ns ->
  exists s, spec_open (junk ++ flat_map drs_bytes (r0 :: rs) ++ cut) = Ok s /\
    spec_reads ign (zlen (r0 :: rs) :: n :: ns) s =
    Ok (length (r0 :: rs), Some (frame_time r0), spectra (q_format r0) (q_nfreq r0) (length (r0 :: rs)) (r0 :: rs)) ::
    Ok (0%nat, None, spectra (q_format r0) (q_nfreq r0) (asked n) []) :: map (fun _ => Raise EOFError) ns.
Proof.
  intros junk r0 rs r cut rest ign n ns R NE BJ W E C1 C2 NH HC N0 HN. inversion R as [|? ? [G0 _] R1]; subst. set (all := r0 :: rs) in *.
  assert (BC : bytes_ok cut). { pose proof (drs_bytes_ok r) as B. rewrite E in B. apply bytes_ok_app in B. apply B. }
  assert (AS : asked (zlen all) = length all). { unfold asked, all. rewrite zlen_cons. unfold zlen. cbn [length]. lia. }
  assert (FA : firstn (length all) all = all) by apply firstn_all.
  pose proof (zlen_nonneg all) as ZA.
  pose proof (read_step r0 G0 ign (zlen all) junk cut None r0 rs ZA R) as ST. fold all in ST. rewrite AS, FA in ST.
  eexists. split; [apply open_rec; auto|]. cbn [spec_reads]. unfold desc_of. fold all. fold (bytes all). rewrite ST; [|destruct HC as [HC|HC]; auto|left; lia].
  2: { right. unfold all. cbn [chain]. split; [destruct G0 as (_ & _ & T0 & _); lia|]. apply no_jump_chain. auto. }
  f_equal. set (d := mkSD _ _ _ _). set (f := mkFile (junk ++ bytes all ++ cut) (zlen (junk ++ bytes all))).
  assert (CP : 0 < zlen cut). { destruct cut; [congruence|]. rewrite zlen_cons. pose proof (zlen_nonneg cut). lia. }
  assert (RS : read_drspec f = (mkFile (junk ++ bytes all ++ cut) (zlen (junk ++ bytes all ++ cut)), AtEOF)).
  { unfold f. rewrite !(app_assoc junk). apply (read_short (junk ++ bytes all) r cut W). exists rest. auto. }
  assert (SR : forall t, spec_read ign n (mkSO f d (Some t)) =
     (mkSO (mkFile (junk ++ bytes all ++ cut) (zlen (junk ++ bytes all ++ cut))) d (Some t), Ok (0%nat, None, spectra (q_format r0) (q_nfreq r0) (asked n) []))).
  { intro t. unfold spec_read. cbn [so_fh so_desc spec_first so_tag]. change (f_tell f) with (zlen (junk ++ bytes all)). unfold f at 1. cbn [f_data].
    destruct (Z.eqb_spec (zlen (junk ++ bytes all)) (zlen (junk ++ bytes all ++ cut))) as [X|_]; [rewrite app_assoc, (zlen_app (junk ++ bytes all)) in X; lia|].
    change (sd_tint d) with (frame_tint r0). destruct (good_ok r0 G0) as (_ & _ & _ & T0). destruct (Z.eqb_spec (frame_tint r0) 0); [lia|]. cbv zeta.
    rewrite asked_n by auto. destruct (Z.ltb_spec (Z.max n 1) 0); [lia|]. fold (asked n).
    assert (LP : spec_loop ign (asked n) d f t [] None = (mkFile (junk ++ bytes all ++ cut) (zlen (junk ++ bytes all ++ cut)), t, Ok ([], None))).
    { unfold asked. destruct (Z.to_nat (Z.max n 1)) eqn:EN; [lia|]. cbn [spec_loop]. rewrite RS. reflexivity. }
    rewrite LP. cbn [bind length]. do 3 f_equal. apply (array_good r0 (asked n) []). constructor. }
  rewrite SR. f_equal. clear - HN. induction HN as [|m ms M0 HM IH]; [reflexivity|]. cbn [spec_reads map]. unfold spec_read at 1. cbn [so_fh f_tell f_pos f_data]. rewrite Z.eqb_refl. f_equal. exact IH.
Qed.
Lemma C74_spec_cut_example_proof : exists rest, drs_bytes (dm 5) = ztake 100 (drs_bytes (dm 5)) ++ rest /\ ztake 100 (drs_bytes (dm 5)) <> [] /\ rest <> [].
Proof. exists (zdrop 100 (drs_bytes (dm 5))). split; [symmetry; apply ztake_zdrop|]. split; intro H; vm_compute in H; discriminate H. Qed.

(** C74 refuted: a step back in time, by any amount, passes unnoticed: the frames come out as if in order. *)
Lemma C74_spec_backwards_refuted_proof : exists r0 rs, recording r0 rs /\ frame_time (last rs r0) < frame_time r0 - 10 ^ 12 /\
  forall ns, Forall (fun n => 0 <= n) ns -> exists s, spec_open (flat_map drs_bytes (r0 :: rs)) = Ok s /\ spec_reads false ns s = returned r0 ns (r0 :: rs).
Proof.
  exists (dm 0), [dm 1; dm (-10000000)].
  assert (R : recording (dm 0) [dm 1; dm (-10000000)]) by (unfold recording; repeat (apply Forall_cons; [split; apply dm_good; cbn; lia|]); apply Forall_nil).
  split; [exact R|]. split; [cbn; lia|]. intros ns HN. apply (C74_spec_reads_proof [] (dm 0) [dm 1; dm (-10000000)] false ns R); auto.
  - intro X; discriminate X.
  - constructor.
  - intros i Hi. cbn in Hi. lia.
  - right. cbn. lia.
Qed.

(** C74: a frame without one of the products of the recording fills that product's row with NaN, for that frame, in its tuning. *)
Lemma C74_spec_missing_product_proof : forall d x rows j, frame_rows d x = Ok rows -> 0 <= j < zlen (sd_prods d) ->
  (forall v, ~ In (znth 0 j (sd_prods d), v) (sf_out x)) ->
  nth (Z.to_nat j) rows [] = repeat SNan (Z.to_nat (sd_lfft d)) /\
  nth (Z.to_nat j + length (sd_prods d)) rows [] = repeat SNan (Z.to_nat (sd_lfft d)).
Proof.
  intros d x rows j H Hj HN. unfold frame_rows in H.
  assert (NONE : out_of x (znth 0 j (sd_prods d)) = None).
  { unfold out_of. destruct (find _ (sf_out x)) as [[p v]|] eqn:E; [|reflexivity]. apply find_some in E. destruct E as [I E]. cbn [fst] in E. apply Z.eqb_eq in E. subst p. exfalso. apply (HN v I). }
  assert (FR : forall l r, fill_rows (sd_lfft d) l = Ok r -> forall i, nth_error l i = Some None -> nth i r [] = repeat SNan (Z.to_nat (sd_lfft d))).
  { clear. induction l as [|a l IH]; intros r H i Hi; [destruct i; discriminate Hi|]. cbn [fill_rows] in H. destruct (fill_row (sd_lfft d) a) as [y|] eqn:EA; [|discriminate H].
    cbn [bind] in H. destruct (fill_rows (sd_lfft d) l) as [z|] eqn:EL; [|discriminate H]. cbn [bind] in H. injection H as <-. destruct i as [|i].
    - injection Hi as ->. cbn in EA. injection EA as <-. reflexivity.
    - apply (IH _ eq_refl). exact Hi. }
  assert (NE : nth_error (sd_prods d) (Z.to_nat j) = Some (znth 0 j (sd_prods d))).
  { unfold znth. destruct (Z.ltb_spec j 0); [lia|]. apply nth_error_nth'. unfold zlen in Hj. lia. }
  split; apply (FR _ _ H).
  - rewrite nth_error_app1 by (rewrite map_length; unfold zlen in Hj; lia). rewrite nth_error_map, NE. cbn. rewrite NONE. reflexivity.
  - rewrite nth_error_app2 by (rewrite map_length; lia). rewrite map_length. replace (Z.to_nat j + length (sd_prods d) - length (sd_prods d))%nat with (Z.to_nat j) by lia.
    rewrite nth_error_map, NE. cbn. rewrite NONE. reflexivity.
Qed.

(** Of two products the frame has the second only. *)
Lemma C74_spec_missing_product_example_proof :
  let x := mkSF (drs_head []) [(8, ([CZero; CZero], [CZero; CZero]))] in
  exists rows, frame_rows (mkSD 100 10 2 [1; 8]) x = Ok rows /\ length rows = 4%nat /\ nth 0 rows [] = [SNan; SNan] /\ nth 3 rows [] = [SCell CZero; SCell CZero] /\
    forall v, ~ In (znth 0 0 [1; 8], v) (sf_out x).
Proof. eexists. split; [reflexivity|]. repeat (split; [reflexivity|]). intros v H. cbn in H. destruct H as [H|H]; [discriminate H|contradiction]. Qed.
