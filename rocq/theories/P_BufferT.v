(** Final forms of the frame buffer properties (C01-C09). *)
From Coq Require Import List ZArith Bool Lia Permutation Sorted.
From Verif Require Import M_Buffer M_BufferModes S_Buffer P_Buffer P_Buffer2 P_BufferModes.
Import ListNotations.
Open Scope Z_scope.

Lemma cor_cfg_nseg : forall stands chans n re c, cor_cfg_of stands chans n re = Ok c -> c_nseg c = n.
Proof. intros stands chans n re c H. unfold cor_cfg_of in H. destruct (negb _); [congruence|]. inversion H; reflexivity. Qed.

Lemma built_basic : forall F (M : ops F) C fl, built F M C fl ->
  (1 <= c_nseg C)%nat /\ (forall t i, o_fom M (o_fill M t i) = o_fom M t) /\
  (forall t i, o_valid M (o_fill M t i) = false) /\ 0 <= fl.
Proof.
  intros F M C fl H. destruct H as
    [beams tunes pols n re c H|beams tunes pols n re c H|chans n re c Hn H|threads n re c Hn H|chans n re c Hn H].
  - unfold drx_cfg in H. destruct (negb _); [congruence|]. destruct (negb _); [congruence|].
    destruct n; [congruence|]. inversion H; subst.
    split; [simpl; lia|]. split; [|split].
    + intros t i. simpl. destruct i as [|? [|? [|? [|]]]]; reflexivity.
    + intros t i. simpl. destruct i as [|? [|? [|? [|]]]]; reflexivity.
    + unfold drx_floor. lia.
  - unfold drx_cfg in H. destruct (negb _); [congruence|]. destruct (negb _); [congruence|].
    destruct n; [congruence|]. inversion H; subst.
    split; [simpl; lia|]. split; [|split].
    + intros t i. simpl. destruct i as [|? [|? [|? [|]]]]; reflexivity.
    + intros t i. simpl. destruct i as [|? [|? [|? [|]]]]; reflexivity.
    + unfold drx_floor. lia.
  - split; [rewrite (cor_cfg_nseg _ _ _ _ _ H); exact Hn|]. split; [|split].
    + intros t i. simpl. destruct i as [|? [|? [|? [|]]]]; reflexivity.
    + intros t i. simpl. destruct i as [|? [|? [|? [|]]]]; reflexivity.
    + lia.
  - unfold vdif_cfg in H. destruct (negb _); [congruence|]. inversion H; subst; clear H.
    split; [exact Hn|]. split; [reflexivity|]. split; [reflexivity|lia].
  - unfold tbx_cfg in H. destruct (negb _); [congruence|]. inversion H; subst; clear H.
    split; [exact Hn|]. split; [reflexivity|]. split; [reflexivity|lia].
Qed.

Lemma built_distinct_lawful : forall F (M : ops F) C fl, built_distinct F M C fl -> lawful M C.
Proof.
  intros F M C fl H. destruct H as
    [beams tunes pols n re c H1 H2 H3 H4 H5|beams tunes pols n re c H1 H2 H3 H4 H5|
     chans n re c H1 H2 H3|threads n re c H1 H2 H3|chans n re c H1 H2 H3].
  - exact (drx_lawful 0 _ _ _ _ _ _ (or_introl eq_refl) H1 H2 H3 H4 H5).
  - exact (drx_lawful 64 _ _ _ _ _ _ (or_intror eq_refl) H1 H2 H3 H4 H5).
  - exact (cor_lawful _ _ _ _ _ cor_stands_NoDup H2 H1 H3).
  - exact (vdif_lawful _ _ _ _ H2 H1 H3).
  - exact (tbx_lawful _ _ _ _ H2 H1 H3).
Qed.

Lemma built_distinct_built : forall F (M : ops F) C fl, built_distinct F M C fl -> built F M C fl.
Proof. intros F M C fl H. destruct H; econstructor; eauto. Qed.

Lemma init_last : forall F (C : cfg) fl, (1 <= c_nseg C)%nat -> deque_last (s_done (@init F C fl)) = Some fl.
Proof. intros F C fl H. simpl. destruct (c_nseg C); [lia|auto]. Qed.

(** Whatever is appended, successive get() calls never raise and return non-empty
    sets, each of a single timestamp, in strictly increasing order. *)
Lemma C01_emission_strictly_increasing_proof :
  forall F (M : ops F) C fl os, built F M C fl -> Forall app_or_get os ->
  exists s outs, run M C (init C fl) os = Ok (s, outs) /\
    strictly_increasing (o_fom M) outs /\ Forall (one_stamp (o_fom M)) outs.
Proof.
  intros F M C fl os HB Ho. destruct (built_basic _ _ _ _ HB) as (Hs & Hf & _ & _).
  destruct (run_order M C Hs Hf os (init C fl) fl (init_Inv M C Hs fl) (init_last F C fl Hs) Ho)
    as (s & outs & E & _ & HS & HF & HC).
  exists s, outs. split; auto. split; auto.
  rewrite Forall_forall in *. intros l Hl. split; [apply HF; auto|apply HC; auto].
Qed.

Definition ex_tbx (t : Z) : tbx_frame := mkTbx 0 t [Fin 3] true.
Definition ex_tbx_cfg : cfg := mkCfg 2 false 1 [[0]].

(** A concrete history: out-of-order arrival, three sets in increasing order. *)
Lemma C01_example_proof :
  built tbx_frame tbx_ops ex_tbx_cfg 0 /\
  outputs (run tbx_ops ex_tbx_cfg (init ex_tbx_cfg 0)
    [OAppend [ex_tbx 300; ex_tbx 100]; OGet; OAppend [ex_tbx 200]; OGet; OAppend [ex_tbx 400]; OGet])
  = Ok [[ex_tbx 100]; [ex_tbx 200]; [ex_tbx 300]].
Proof. split; [|vm_compute; reflexivity]. apply (B_tbx [0] 2 false); [lia|reflexivity]. Qed.

(** Complete behaviour of get(): it is determined by the frames appended so far
    and the timestamp [d] of the last set returned. With [T] the timestamps of
    appended frames newer than [d]: if [T] has fewer than nsegments elements
    nothing is returned and nothing changes; otherwise the set is built from
    exactly the frames stamped with the smallest element of [T]: each of them is
    returned, up to the duplicate filter, and what else is returned are invalid
    fill frames. *)
Lemma C01_get_determined_by_history_proof :
  forall F (M : ops F) C fl os s outs, built F M C fl -> Forall app_or_get os ->
  run M C (init C fl) os = Ok (s, outs) ->
  let d := last_stamp (o_fom M) fl outs in
  let T := stamps_after (o_fom M) (appended os) d in
  ((length T < c_nseg C)%nat -> get M C s = Ok (s, None)) /\
  ((c_nseg C <= length T)%nat -> exists t s' out, In t T /\ (forall x, In x T -> t <= x) /\
     get M C s = Ok (s', Some out) /\
     (forall f, In f out -> o_fom M f = t) /\
     (forall f, In f out -> In f (at_stamp (o_fom M) (appended os) t) \/ o_valid M f = false) /\
     (forall f, In f (at_stamp (o_fom M) (appended os) t) ->
        In f out \/ exists g, In g out /\ In g (at_stamp (o_fom M) (appended os) t) /\ o_did M g = o_did M f)).
Proof.
  intros F M C fl os s outs HB Ho H d T.
  destruct (built_basic _ _ _ _ HB) as (Hs & Hf & Hv & _).
  destruct (run_R M C Hs Hf os [] fl (init C fl) (R_init M C Hs fl) Ho) as (s' & outs' & E & HR & _).
  rewrite H in E. inversion E; subst s' outs'; clear E. simpl in HR.
  pose proof (get_refines M C Hs _ _ _ HR) as HG. fold d T in HG.
  split.
  - intro Hlt. apply Nat.ltb_lt in Hlt. fold d in HG. fold T in HG. rewrite Hlt in HG. exact HG.
  - intro Hge. fold d in HG. fold T in HG.
    destruct (Nat.ltb_spec (length T) (c_nseg C)) as [|_]; [lia|].
    destruct HG as (k & s' & out & Hk & Hm & HG & _ & HK & HL).
    exists k, s', out. split; auto. split; auto. split; auto.
    pose proof (i_weak _ _ (proj1 HR)) as HW.
    destruct (get_key_out M C Hf _ _ _ _ HW HK) as [_ Ho2]. split; auto.
    destruct (get_key_cases M C _ _ _ _ HK) as (l & out0 & fu & pa & dr & mi & L & -> & -> & HC).
    rewrite HL in L. inversion L; subst l; clear L.
    pose proof (maybe_sort_perm M C out0) as Hms.
    assert (HC' : (forall f, In f out0 -> In f (at_stamp (o_fom M) (appended os) k) \/ o_valid M f = false) /\
      (forall f, In f (at_stamp (o_fom M) (appended os) k) ->
        In f out0 \/ exists g, In g out0 /\ In g (at_stamp (o_fom M) (appended os) k) /\ o_did M g = o_did M f)).
    { destruct HC as [(_ & -> & _)|[(_ & -> & _)|(_ & dd & D & _)]].
      - auto.
      - split.
        + intros f Hfi. apply in_app_iff in Hfi. destruct Hfi as [|Hfi]; auto. right.
          destruct (at_stamp (o_fom M) (appended os) k); [destruct Hfi|].
          apply in_map_iff in Hfi. destruct Hfi as (i & <- & _). apply Hv.
        + intros f Hfi. left. apply in_app_iff. auto.
      - destruct (dedupe_spec M _ _ _ _ D) as (_ & Hin & _ & _ & Hcov). split; auto.
        intros f Hfi. right. destruct (Hcov f Hfi) as [[]|Hi]. apply in_map_iff in Hi.
        destruct Hi as (g & Eg & Hg). exists g. split; auto. }
    destruct HC' as [HC1 HC2]. split.
    + intros f Hfi. apply HC1. eapply Permutation_in; eauto.
    + intros f Hfi. destruct (HC2 f Hfi) as [Hi|(g & Hg1 & Hg2 & Hg3)].
      * left. eapply Permutation_in; [symmetry|]; eauto.
      * right. exists g. split; auto. eapply Permutation_in; [symmetry|]; eauto.
Qed.

(** A frame not newer than a frame already returned is dropped: the only state
    change is dropped + 1, and no later output is affected. *)
Lemma C02_late_frame_is_dropped_proof :
  forall F (M : ops F) C fl os s outs set g f os',
  built F M C fl -> Forall app_or_get os -> run M C (init C fl) os = Ok (s, outs) ->
  In set outs -> In g set -> o_fom M f <= o_fom M g ->
  (exists s', run M C (init C fl) (os ++ [OAppend [f]]) = Ok (s', outs) /\ one_more_dropped s s') /\
  outputs (run M C (init C fl) (os ++ OAppend [f] :: os')) = outputs (run M C (init C fl) (os ++ os')).
Proof.
  intros F M C fl os s outs set g f os' HB Ho H Hl Hg Hle.
  destruct (built_basic _ _ _ _ HB) as (Hs & Hf & _ & _).
  destruct (late_dropped M C Hs Hf fl os s outs set g f os' Ho H Hl Hg Hle) as [H1 H2].
  split; auto. exists (bump_dropped s). split; auto. reflexivity.
Qed.

(** A frame newer than everything returned is kept, and counted nowhere. *)
Lemma C02_new_frame_is_kept_proof :
  forall F (M : ops F) C fl os s outs f,
  built F M C fl -> Forall app_or_get os -> run M C (init C fl) os = Ok (s, outs) ->
  last_stamp (o_fom M) fl outs < o_fom M f ->
  exists s', run M C (init C fl) (os ++ [OAppend [f]]) = Ok (s', outs) /\
    Permutation (still_buffered s') (f :: still_buffered s) /\
    s_dropped s' = s_dropped s /\ s_full s' = s_full s /\ s_partial s' = s_partial s /\ s_missing s' = s_missing s.
Proof.
  intros F M C fl os s outs f HB Ho H Hlt.
  destruct (built_basic _ _ _ _ HB) as (Hs & Hf & _ & _).
  pose proof (late_or_kept M C Hs Hf fl os s outs f Ho H) as HA.
  destruct (Z.leb_spec (o_fom M f) (last_stamp (o_fom M) fl outs)); [lia|].
  rewrite run_app, H. simpl in *. destruct (append_one M s f) as [s1|]; [|congruence].
  inversion HA; subst. eexists. rewrite app_nil_r. split; [reflexivity|]. simpl.
  split; auto. unfold still_buffered. simpl. apply add_frame_perm.
Qed.

(** The hypotheses are met: after emitting 100, frame 100 is late. *)
Lemma C02_example_proof :
  exists s, run tbx_ops ex_tbx_cfg (init ex_tbx_cfg 0) [OAppend [ex_tbx 300; ex_tbx 100]; OGet]
     = Ok (s, [[ex_tbx 100]]) /\ s_dropped s = 0 /\
  exists s', run tbx_ops ex_tbx_cfg (init ex_tbx_cfg 0) [OAppend [ex_tbx 300; ex_tbx 100]; OGet; OAppend [ex_tbx 100]]
     = Ok (s', [[ex_tbx 100]]) /\ s_dropped s' = 1.
Proof.
  eexists. split; [vm_compute; reflexivity|]. split; [reflexivity|].
  eexists. split; [vm_compute; reflexivity|]. reflexivity.
Qed.

(** Every appended frame is exactly one of: dropped (and counted), still
    buffered, or returned; every other returned frame is an invalid fill frame;
    full + partial counts the sets returned. *)
Lemma C03_frames_conserved_proof :
  forall F (M : ops F) C fl os s outs, built F M C fl -> Forall no_reset os ->
  Forall (fun f => o_valid M f = true) (appended os) ->
  run M C (init C fl) os = Ok (s, outs) ->
  exists dropped_frames, s_dropped s = Z.of_nat (length dropped_frames) /\
    Permutation (appended os) (dropped_frames ++ still_buffered s ++ filter (o_valid M) (concat outs)) /\
    s_full s + s_partial s = Z.of_nat (length outs).
Proof.
  intros F M C fl os s outs HB Ho Hv H.
  destruct (built_basic _ _ _ _ HB) as (Hs & Hf & Hi & _).
  destruct (run_conserves M C Hi os (init C fl) s outs) as (dr & H1 & H2 & _ & H4); auto.
  { intros f []. }
  exists dr. unfold init, buffered, still_buffered in *. simpl in *. rewrite app_nil_r in H2.
  split; [lia|]. split; [exact H2|lia].
Qed.

(** No history, resets included, makes the buffer raise. *)
Lemma C03_never_raises_proof :
  forall F (M : ops F) C fl os, built_distinct F M C fl ->
  exists s outs, run M C (init C fl) os = Ok (s, outs).
Proof.
  intros F M C fl os HB. pose proof (built_distinct_lawful _ _ _ _ HB) as L.
  destruct (run_total M C L os (init C fl)) as (s & outs & E & _); eauto.
  apply init_Inv. apply (lw_seg _ _ L).
Qed.

Lemma C03_example_proof :
  exists s, run tbx_ops ex_tbx_cfg (init ex_tbx_cfg 0)
    [OAppend [ex_tbx 300; ex_tbx 100]; OGet; OAppend [ex_tbx 50; ex_tbx 400]; OFlush; OAppend [ex_tbx 500]]
    = Ok (s, [[ex_tbx 100]; [ex_tbx 300]; [ex_tbx 400]]) /\ s_dropped s = 1 /\ still_buffered s = [ex_tbx 500].
Proof. eexists. split; [vm_compute; reflexivity|]. split; reflexivity. Qed.

(** If no two appended frames carry the same timestamp and identifier and all
    identifiers are expected, every set returned by get() or flush() has exactly
    one frame per expected identifier, all of one timestamp, and "missing" is
    the number of invalid (fill) frames returned. *)
Lemma C04_sets_are_complete_partial_proof :
  forall F (M : ops F) C fl os s outs, built_distinct F M C fl -> Forall no_reset os ->
  Forall (fun f => o_valid M f = true) (appended os) ->
  (forall f, In f (appended os) -> In (o_mid M f) (c_possible C)) ->
  NoDup (map (fun f => (o_fom M f, o_mid M f)) (appended os)) ->
  run M C (init C fl) os = Ok (s, outs) ->
  Forall (fun o => one_per_id (o_mid M) (c_possible C) o /\ one_stamp (o_fom M) o) outs /\
  s_missing s = count_invalid (o_valid M) (concat outs).
Proof.
  intros F M C fl os s outs HB Ho Hv Hp Hd H.
  pose proof (built_distinct_lawful _ _ _ _ HB) as L.
  destruct (run_set_ok M C L os (init C fl) s outs) as (H1 & H2 & _); auto.
  - apply init_Inv. apply (lw_seg _ _ L).
  - intros f [].
  - unfold buffered. simpl. rewrite app_nil_r. split; auto.
Qed.

(** Example: 4 of 4 DRX frames, then 2 of 4 (two fill frames). *)
Definition ex_drx (b u p t : Z) : drx_frame := mkDrx (drx_pack 0 b u p) (drx_floor + t) [Fin 5; Fin (-7)] true.
Definition ex_drx_cfg : cfg := mkCfg 1 false 4 [[1; 1; 0]; [1; 1; 1]; [1; 2; 0]; [1; 2; 1]].

Lemma C04_example_proof :
  built_distinct drx_frame (drx_ops 0) ex_drx_cfg drx_floor /\
  exists s, run (drx_ops 0) ex_drx_cfg (init ex_drx_cfg drx_floor)
    [OAppend [ex_drx 1 1 0 10; ex_drx 1 1 1 10]; OGet] =
    Ok (s, [[ex_drx 1 1 0 10; ex_drx 1 1 1 10;
             mkDrx (drx_pack 0 1 2 0) (drx_floor + 10) [Fin 0; Fin 0] false;
             mkDrx (drx_pack 0 1 2 1) (drx_floor + 10) [Fin 0; Fin 0] false]]) /\ s_missing s = 2.
Proof.
  split.
  - apply (D_drx [1] [1; 2] [0; 1] 1 false).
    + repeat constructor; simpl; tauto.
    + repeat constructor; simpl; intuition lia.
    + repeat constructor; simpl; intuition lia.
    + simpl. intros b [<-|[]]. lia.
    + reflexivity.
  - eexists. split; vm_compute; reflexivity.
Qed.

(** Without the no-duplicates hypothesis the property fails: a duplicated
    packet that makes the count reach nFrames is returned as a "full" set in
    which one tuning/polarisation is missing and another is present twice. *)
Lemma C04_complete_refuted_count_proof :
  exists os s o, built_distinct drx_frame (drx_ops 0) ex_drx_cfg drx_floor /\
    Forall no_reset os /\ Forall (fun f => dx_valid f = true) (appended os) /\
    (forall f, In f (appended os) -> In (o_mid (drx_ops 0) f) (c_possible ex_drx_cfg)) /\
    run (drx_ops 0) ex_drx_cfg (init ex_drx_cfg drx_floor) os = Ok (s, [o]) /\
    s_full s = 1 /\ s_missing s = 0 /\
    ~ In [1; 2; 1] (map (o_mid (drx_ops 0)) o).
Proof.
  exists [OAppend [ex_drx 1 1 0 10; ex_drx 1 1 0 10; ex_drx 1 1 1 10; ex_drx 1 2 0 10]; OGet].
  eexists. eexists. split; [apply C04_example_proof|].
  split; [repeat constructor|]. split; [repeat constructor|].
  split. { intros f Hf. simpl in Hf. repeat (destruct Hf as [<-|Hf]; [vm_compute; tauto|]). destruct Hf. }
  split; [vm_compute; reflexivity|]. split; [reflexivity|]. split; [reflexivity|].
  vm_compute. intuition discriminate.
Qed.

(** ... and in a partial set a duplicate leaves more frames than expected and
    a "missing" counter smaller than the number of fill frames. *)
Lemma C04_complete_refuted_partial_proof :
  exists os s o, built_distinct drx_frame (drx_ops 0) ex_drx_cfg drx_floor /\
    Forall no_reset os /\ Forall (fun f => dx_valid f = true) (appended os) /\
    (forall f, In f (appended os) -> In (o_mid (drx_ops 0) f) (c_possible ex_drx_cfg)) /\
    run (drx_ops 0) ex_drx_cfg (init ex_drx_cfg drx_floor) os = Ok (s, [o]) /\
    length o = 5%nat /\ s_missing s = 1 /\ count_invalid dx_valid o = 2.
Proof.
  exists [OAppend [ex_drx 1 1 0 10; ex_drx 1 1 0 10; ex_drx 1 1 1 10]; OGet].
  eexists. eexists. split; [apply C04_example_proof|].
  split; [repeat constructor|]. split; [repeat constructor|].
  split. { intros f Hf. simpl in Hf. repeat (destruct Hf as [<-|Hf]; [vm_compute; tauto|]). destruct Hf. }
  split; [vm_compute; reflexivity|]. split; [reflexivity|]. split; reflexivity.
Qed.

(** COR: as soon as one set with two or more start channels holds more than
    nFrames frames, the duplicate filter (which ignores the channel) removes
    distinct frames: the set returned never has one frame per expected id. *)
Lemma C04_cor_overfull_loses_frames_proof :
  forall chans c re fs t s o, NoDup chans -> (2 <= length chans)%nat -> cor_cfg chans 1 re = Ok c ->
  0 < t -> (forall f, In f fs -> c_tt f = t /\ In [c_s0 f; c_s1 f; c_chan f] (c_possible c)) ->
  (c_nframes c < length fs)%nat ->
  run cor_ops c (init c 0) [OAppend fs; OGet] = Ok (s, [o]) ->
  (length o < c_nframes c)%nat /\ ~ one_per_id (o_mid cor_ops) (c_possible c) o.
Proof.
  intros chans c re fs t s o Hnd Hch Hcfg Ht Hfs Hlen H.
  assert (Hone : (1 <= c_nseg c)%nat).
  { rewrite (cor_cfg_nseg _ _ _ _ _ Hcfg). lia. }
  destruct (cor_cfg_count _ _ _ _ _ cor_stands_NoDup Hnd Hcfg) as (Hc1 & Hc2 & Hc3 & Hc4).
  assert (Hshort : (length o < c_nframes c)%nat).
  { cbn [run step] in H.
    destruct (append cor_ops (init c 0) fs) as [s1|] eqn:E; [|congruence].
    destruct (get cor_ops c s1) as [[s2 [o'|]]|] eqn:G; try congruence.
    2: { simpl in H. congruence. }
    simpl in H. inversion H; subst s2 o'; clear H.
    assert (Hf : forall (tm : cor_frame) i, o_fom cor_ops (o_fill cor_ops tm i) = o_fom cor_ops tm).
    { intros tm i. simpl. destruct i as [|? [|? [|? [|]]]]; reflexivity. }
    pose proof (R_append cor_ops c Hone fs [] 0 _ _ (R_init cor_ops c Hone 0) E) as HR. simpl in HR.
    pose proof (get_refines cor_ops c Hone _ _ _ HR) as HG.
    destruct (Nat.ltb _ _); [congruence|].
    destruct HG as (k & s' & out & Hk & _ & HG & _ & HK & HL). rewrite G in HG. inversion HG; subst s' out.
    assert (Hkt : k = t).
    { unfold stamps_after in Hk. rewrite nodup_In, in_map_iff in Hk. destruct Hk as (f & <- & Hfi).
      apply filter_In in Hfi. apply (Hfs f). tauto. }
    assert (Hall : at_stamp (o_fom cor_ops) fs k = fs).
    { unfold at_stamp. apply filter_all. intros f Hfi. apply Z.eqb_eq. subst k. apply (Hfs f Hfi). }
    rewrite Hall in HL.
    destruct (get_key_cases cor_ops c _ _ _ _ HK) as (l & out & fu & pa & dr & mi & L & -> & _ & HC).
    rewrite HL in L. inversion L; subst l; clear L.
    destruct HC as [(Hx & _)|[(Hx & _)|(_ & d & D & _)]]; [lia|lia|].
    destruct (dedupe_spec cor_ops _ _ _ _ D) as (_ & Hin & Hnodup & _ & _).
    rewrite (Permutation_length (maybe_sort_perm cor_ops c out)).
    assert (Hinc : incl (map (o_did cor_ops) out)
       (map (fun i => match i with [a; b; _] => [a; b] | _ => i end) (cor_frame_list cor_stands [0]))).
    { intros i Hi. apply in_map_iff in Hi. destruct Hi as (f & <- & Hfo). apply Hin in Hfo.
      destruct (Hfs f Hfo) as [_ Hpos]. apply Hc4 in Hpos.
      destruct Hpos as (a & b & ch & Eq & Ha & Hb & Hab & _). inversion Eq; subst.
      apply in_map_iff. exists [c_s0 f; c_s1 f; 0]. split; auto.
      apply cor_list_shape. exists (c_s0 f), (c_s1 f), 0.
      repeat split; auto. left. reflexivity. }
    pose proof (NoDup_incl_length Hnodup Hinc) as Hle. rewrite !map_length in Hle.
    rewrite cor_list_length in Hle by apply cor_stands_NoDup.
    rewrite Hc3. change (length [0]) with 1%nat in Hle.
    assert (Hpos : (1 <= length cor_stands * (length cor_stands + 1) / 2)%nat).
    { unfold cor_stands. rewrite map_length, seq_length. apply Nat.leb_le. vm_compute. reflexivity. }
    eapply Nat.le_lt_trans; [exact Hle|].
    set (q := (length cor_stands * (length cor_stands + 1) / 2)%nat) in *. nia. }
  split; auto. unfold one_per_id. intro HP. apply Permutation_length in HP.
  rewrite map_length in HP. lia.
Qed.

(** Such a set exists: all expected frames of two start channels, one of them twice. *)
Lemma C04_cor_overfull_example_proof :
  exists c fs, cor_cfg [0; 132] 1 false = Ok c /\
   (forall f, In f fs -> c_tt f = 7 /\ In [c_s0 f; c_s1 f; c_chan f] (c_possible c)) /\
   (c_nframes c < length fs)%nat.
Proof.
  assert (HE : exists c, cor_cfg [0; 132] 1 false = Ok c).
  { unfold cor_cfg. generalize cor_stands. intro st. unfold cor_cfg_of. eexists. reflexivity. }
  destruct HE as [c E].
  assert (Hnd : NoDup [0; 132]) by (repeat constructor; simpl; intuition lia).
  destruct (cor_cfg_count _ _ _ _ _ cor_stands_NoDup Hnd E) as (Hc1 & Hc2 & Hc3 & Hc4).
  exists c, (map (fun i => match i with [a; b; ch] => mkCor ch a b 7 [] true | _ => mkCor 0 1 1 7 [] true end)
               ([1; 1; 0] :: c_possible c)).
  split; auto. split.
  - intros f Hf. apply in_map_iff in Hf. destruct Hf as (i & <- & Hi).
    assert (Hi' : In i (c_possible c)).
    { destruct Hi as [<-|Hi]; auto. apply Hc4. exists 1, 1, 0.
      assert (In 1 cor_stands) by (unfold cor_stands; simpl; auto).
      repeat split; auto; try lia. simpl; auto. }
    pose proof Hi' as Hi2. apply Hc4 in Hi'. destruct Hi' as (a & b & ch & -> & _). simpl. auto.
  - rewrite map_length. simpl. lia.
Qed.

(** Fill frames carry zeros: DRX, DRX8, VDIF and TBX always (their samples are
    finite); for COR when the template frame has finite data. *)
Lemma C04_fill_is_zero_proof :
  forall t i, (forall x, In x (c_data t) -> exists z, x = Fin z) ->
  Forall (fun x => x = Fin 0) (c_data (cor_fill t i)) /\ length (c_data (cor_fill t i)) = length (c_data t) /\
  c_valid (cor_fill t i) = false /\ c_tt (cor_fill t i) = c_tt t.
Proof.
  intros t i H.
  assert (HF : Forall (fun x => x = Fin 0) (map mul0 (c_data t))).
  { apply Forall_forall. intros x Hx. apply in_map_iff in Hx. destruct Hx as (y & <- & Hy).
    destruct (H y Hy) as [z ->]. reflexivity. }
  destruct i as [|? [|? [|? [|]]]]; simpl; rewrite map_length; auto.
Qed.

(** A COR template with a NaN or infinite visibility gives NaN "zero" frames. *)
Lemma C04_fill_is_zero_refuted_proof :
  exists t i, c_valid t = true /\ In NaN (c_data (cor_fill t i)).
Proof. exists (mkCor 0 1 1 5 [Inf] true), [1; 2; 0]. split; [reflexivity|simpl; auto]. Qed.

(** Exhausting flush() empties the buffer and returns one set per buffered timestamp. *)
Lemma C05_flush_drains_proof :
  forall F (M : ops F) C fl os s outs, built_distinct F M C fl -> run M C (init C fl) os = Ok (s, outs) ->
  exists s' sets, flush M C s = Ok (s', sets) /\ is_empty s' = true /\ get M C s' = Ok (s', None) /\
    length sets = length (s_buf s) /\
    Forall2 (fun k o => o <> [] /\ forall f, In f o -> o_fom M f = k) (keys (s_buf s)) sets /\
    NoDup (keys (s_buf s)) /\
    (forall f, In f (still_buffered s) -> exists o g, In o sets /\ In g o /\ o_fom M g = o_fom M f).
Proof.
  intros F M C fl os s outs HB H.
  pose proof (built_distinct_lawful _ _ _ _ HB) as L.
  destruct (run_total M C L os (init C fl)) as (s0 & o0 & E0 & HI).
  { apply init_Inv. apply (lw_seg _ _ L). }
  rewrite H in E0. inversion E0; subst s0 o0.
  pose proof (i_weak _ _ HI) as HW.
  destruct (flush_keys_drains M C L _ s HW eq_refl) as (s' & sets & E & Hemp & HW' & Hlen & HF2).
  exists s', sets. unfold flush. split; auto. split; [unfold is_empty; rewrite Hemp; auto|].
  split. { apply get_none; [apply (lw_seg _ _ L)|]. split; auto. rewrite Hemp. simpl. apply (lw_seg _ _ L). }
  split; [rewrite Hlen; unfold keys; apply map_length|]. split; auto.
  split; [apply HW|].
  intros f Hf. unfold still_buffered in Hf. apply in_concat in Hf. destruct Hf as (l & Hl & Hfl).
  apply in_map_iff in Hl. destruct Hl as ([k l'] & El & Hkl). simpl in El. subst l'.
  destruct (w_entry _ _ HW _ _ Hkl) as [_ Hk]. specialize (Hk f Hfl).
  assert (Hkin : In k (keys (s_buf s))) by (unfold keys; change k with (fst (k, l)); apply in_map; auto).
  clear - HF2 Hkin Hk. induction HF2 as [|k0 o0 ks os [Hne Hall] HF2 IH]; [destruct Hkin|].
  destruct Hkin as [->|Hkin].
  - destruct o0 as [|g o0]; [congruence|]. exists (g :: o0), g.
    split; [simpl; auto|]. split; [simpl; auto|]. rewrite Hall; simpl; auto.
  - destruct (IH Hkin) as (o & g & H1 & H2 & H3). exists o, g. simpl. auto.
Qed.

(** The sets come out in arrival order of the timestamps, not in time order,
    and a timestamp already returned can then be accepted and returned again. *)
Lemma C05_flush_order_refuted_proof :
  exists os sets, built_distinct tbx_frame tbx_ops ex_tbx_cfg 0 /\ Forall no_reset os /\
    outputs (run tbx_ops ex_tbx_cfg (init ex_tbx_cfg 0) os) = Ok sets /\
    map (map x_tt) sets = [[300]; [100]; [300]].
Proof.
  exists [OAppend [ex_tbx 300; ex_tbx 100]; OFlush; OAppend [ex_tbx 300]; OFlush].
  eexists. split.
  { apply (D_tbx [0] 2 false); [lia| |reflexivity]. repeat constructor; simpl; tauto. }
  split; [repeat constructor|]. split; [vm_compute; reflexivity|]. reflexivity.
Qed.

(** get() returns nothing and changes nothing exactly when fewer than nsegments
    timestamps are buffered; otherwise it removes exactly one timestamp, the oldest. *)
Lemma C06_get_waits_until_full_proof :
  forall F (M : ops F) C fl os s outs, built F M C fl -> Forall app_or_get os ->
  run M C (init C fl) os = Ok (s, outs) ->
  ((length (s_buf s) < c_nseg C)%nat <-> get M C s = Ok (s, None)) /\
  ((c_nseg C <= length (s_buf s))%nat -> exists k s' o, get M C s = Ok (s', Some o) /\
     In k (keys (s_buf s)) /\ (forall x, In x (keys (s_buf s)) -> k <= x) /\
     (forall x, In x (keys (s_buf s')) <-> x <> k /\ In x (keys (s_buf s))) /\
     S (length (s_buf s')) = length (s_buf s)).
Proof.
  intros F M C fl os s outs HB Ho H.
  destruct (built_basic _ _ _ _ HB) as (Hs & Hf & _ & _).
  destruct (run_R M C Hs Hf os [] fl (init C fl) (R_init M C Hs fl) Ho) as (s' & outs' & E & HR & _).
  rewrite H in E. inversion E; subst s' outs'; clear E.
  pose proof (i_weak _ _ (proj1 HR)) as HW. split.
  - rewrite (get_none M C Hs s s). split; [auto|tauto].
  - intro Hge. destruct (get_total M C s) as (s' & [o|] & G).
    + destruct (get_some M C _ _ _ HW G) as (k & P & GK & _).
      destruct (peek_some _ _ _ _ P) as [Hk Hm].
      destruct (get_key_WInv M C Hs _ _ _ _ HW GK) as (_ & _ & Hb & _).
      exists k, s', o. split; auto. split; auto. split; auto. rewrite Hb. split.
      * intro x. apply remove_key_keys_In. apply HW.
      * apply remove_key_length; auto.
    + apply get_none in G; auto. destruct G; lia.
Qed.

(** If each append() carries frames of one timestamp and is followed by a get(),
    the buffer never holds more than nsegments - 1 timestamps after the get. *)
Lemma C06_memory_bounded_proof :
  forall F (M : ops F) C fl fss s outs, built F M C fl ->
  Forall (fun fs => forall f g, In f fs -> In g fs -> o_fom M f = o_fom M g) fss ->
  run M C (init C fl) (rounds fss) = Ok (s, outs) -> (length (s_buf s) <= c_nseg C - 1)%nat.
Proof.
  intros F M C fl fss s outs HB HF H.
  destruct (built_basic _ _ _ _ HB) as (Hs & Hf & _ & _).
  eapply (rounds_bound M C Hs fss (init C fl)); eauto.
  - apply init_Inv; auto.
  - simpl. lia.
Qed.

Lemma C06_example_proof :
  exists s, run tbx_ops ex_tbx_cfg (init ex_tbx_cfg 0) (rounds [[ex_tbx 100]; [ex_tbx 200]; [ex_tbx 300]])
   = Ok (s, [[ex_tbx 100]; [ex_tbx 200]]) /\ length (s_buf s) = 1%nat.
Proof. eexists. split; vm_compute; reflexivity. Qed.

(** The advertised number of frames of a complete set is the number of expected
    identifiers: beams x tunings x pols, n(n+1)/2 baselines x channels, threads, channels. *)
Lemma C07_counts_proof :
  (forall beams tunes pols n re c, NoDup beams -> NoDup tunes -> NoDup pols ->
     drx_cfg beams tunes pols n re = Ok c ->
     c_nframes c = length (c_possible c) /\ NoDup (c_possible c) /\
     c_nframes c = (length beams * length tunes * length pols)%nat /\
     (forall i, In i (c_possible c) <-> exists b u p, i = [b; u; p] /\ In b beams /\ In u tunes /\ In p pols)) /\
  (forall stands chans n re c, NoDup stands -> NoDup chans -> cor_cfg_of stands chans n re = Ok c ->
     c_nframes c = length (c_possible c) /\ NoDup (c_possible c) /\
     c_nframes c = (length stands * (length stands + 1) / 2 * length chans)%nat /\
     (forall i, In i (c_possible c) <-> exists a b ch, i = [a; b; ch] /\ In a stands /\ In b stands /\ a <= b /\ In ch chans)) /\
  (forall threads n re c, NoDup threads -> vdif_cfg threads n re = Ok c ->
     c_nframes c = length (c_possible c) /\ NoDup (c_possible c) /\ c_nframes c = length threads /\
     (forall i, In i (c_possible c) <-> exists t, i = [t] /\ In t threads)) /\
  (forall chans n re c, NoDup chans -> tbx_cfg chans n re = Ok c ->
     c_nframes c = length (c_possible c) /\ NoDup (c_possible c) /\ c_nframes c = length chans /\
     (forall i, In i (c_possible c) <-> exists t, i = [t] /\ In t chans)).
Proof.
  split; [|split; [|split]].
  - exact drx_cfg_count.
  - exact cor_cfg_count.
  - exact vdif_cfg_count.
  - exact tbx_cfg_count.
Qed.

(** COR, VDIF and TBX: after reset() the buffer behaves like a new one. *)
Lemma C08_reset_like_new_partial_proof :
  forall F (M : ops F) C fl os s outs os', built F M C fl -> fl = 0 ->
  run M C (init C fl) os = Ok (s, outs) ->
  outputs (run M C (init C fl) (os ++ OReset :: os')) =
    match outputs (run M C (init C fl) os') with Ok o => Ok (outs ++ o) | Raise e => Raise e end.
Proof.
  intros F M C fl os s outs os' HB -> H.
  destruct (built_basic _ _ _ _ HB) as (Hs & Hf & _ & _).
  rewrite run_app, H. simpl. pose proof (reset_like_new M C Hs s os') as HR.
  unfold outputs in *. destruct (run M C (reset C s) os') as [[? ?]|], (run M C (init C 0) os') as [[? ?]|];
    congruence.
Qed.

(** DRX and DRX8: the same holds as long as all later frames are newer than the 1980 floor. *)
Lemma C08_reset_like_new_after_1980_partial_proof :
  forall F (M : ops F) C fl os s outs os', built F M C fl ->
  run M C (init C fl) os = Ok (s, outs) -> Forall (fun f => fl < o_fom M f) (appended os') ->
  outputs (run M C (init C fl) (os ++ OReset :: os')) =
    match outputs (run M C (init C fl) os') with Ok o => Ok (outs ++ o) | Raise e => Raise e end.
Proof.
  intros F M C fl os s outs os' HB H HF.
  destruct (built_basic _ _ _ _ HB) as (Hs & Hf & _ & Hfl).
  rewrite run_app, H. simpl. pose proof (reset_like_new_floor M C Hs fl s os' Hfl HF) as HR.
  unfold outputs in *. destruct (run M C (reset C s) os') as [[? ?]|], (run M C (init C fl) os') as [[? ?]|];
    congruence.
Qed.

(** DRX: a frame from before 1980 is refused by a new buffer but accepted after reset(). *)
Lemma C08_reset_like_new_refuted_proof :
  exists os', built_distinct drx_frame (drx_ops 0) ex_drx_cfg drx_floor /\
    outputs (run (drx_ops 0) ex_drx_cfg (init ex_drx_cfg drx_floor) os') = Ok [] /\
    outputs (run (drx_ops 0) ex_drx_cfg (init ex_drx_cfg drx_floor) ([] ++ OReset :: os')) <> Ok [].
Proof.
  exists [OAppend [ex_drx 1 1 0 (-10)]; OGet]. split; [apply C04_example_proof|].
  split; [vm_compute; reflexivity|]. vm_compute. discriminate.
Qed.

(** With reorder the set returned is the stable sort of the set returned without. *)
Lemma C09_reorder_is_stable_sort_proof :
  forall F (M : ops F) n nf pos s k s' o, 
  get_key M (mkCfg n true nf pos) s k = Ok (s', o) ->
  exists s'' o', get_key M (mkCfg n false nf pos) s k = Ok (s'', o') /\ s'' = s' /\
    Permutation o o' /\ StronglySorted (fun a b => o_cmp M a <= o_cmp M b) o /\
    forall v, filter (fun x => o_cmp M x =? v) o = filter (fun x => o_cmp M x =? v) o'.
Proof.
  intros F M n nf pos s k s' o H. unfold get_key in *. simpl in *.
  destruct (lookup k (s_buf s)) as [l|]; [|congruence].
  destruct (Nat.eqb _ _); [|destruct (Nat.ltb _ _)].
  - inversion H; subst. do 2 eexists. split; [reflexivity|]. split; auto.
    split; [apply sort_stable_perm|]. split; [apply sort_sorted|]. intro; apply sort_filter.
  - inversion H; subst. do 2 eexists. split; [reflexivity|]. split; auto.
    split; [apply sort_stable_perm|]. split; [apply sort_sorted|]. intro; apply sort_filter.
  - destruct (dedupe M [] l). inversion H; subst. do 2 eexists. split; [reflexivity|]. split; auto.
    split; [apply sort_stable_perm|]. split; [apply sort_sorted|]. intro; apply sort_filter.
Qed.

(** The compared key orders DRX identifiers (beam, tuning, pol) alphabetically,
    including tunings 1, 2 and TBX channels numerically. *)
Lemma C09_key_is_id_order_partial_proof :
  (forall a b c a' b' c', 1 <= b <= 4096 -> 1 <= b' <= 4096 -> 0 <= c < 4096 -> 0 <= c' < 4096 ->
     (cmp_key [a; b; c] < cmp_key [a'; b'; c'] <-> lex_lt [a; b; c] [a'; b'; c'])) /\
  (forall a a', cmp_key [a] < cmp_key [a'] <-> lex_lt [a] [a']) /\
  (forall s t t', cmp_key [s; t] < cmp_key [s; t'] <-> lex_lt [s; t] [s; t']).
Proof.
  split; [|split].
  - intros. rewrite cmp_key_3 by lia. simpl. intuition lia.
  - intros. simpl. intuition lia.
  - intros. unfold cmp_key, lex_lt. intuition lia.
Qed.

(** For two-element identifiers (COR stand pairs, VDIF station/thread) the key is
    not the identifier order: stands (1,3) and (2,1) tie, (1,4) sorts after (2,1). *)
Lemma C09_key_is_id_order_refuted_proof :
  (exists a b a' b', lex_lt [a; b] [a'; b'] /\ 1 <= a <= 256 /\ a <= b <= 256 /\ 1 <= a' <= 256 /\ a' <= b' <= 256 /\
     cmp_key [a'; b'] < cmp_key [a; b]) /\
  (exists a b a' b', [a; b] <> [a'; b'] /\ 1 <= a <= 256 /\ a <= b <= 256 /\ 1 <= a' <= 256 /\ a' <= b' <= 256 /\
     cmp_key [a'; b'] = cmp_key [a; b]).
Proof.
  split.
  - exists 1, 10, 2, 2. unfold cmp_key. simpl. lia.
  - exists 1, 4, 2, 2. unfold cmp_key. split; [congruence|]. lia.
Qed.
