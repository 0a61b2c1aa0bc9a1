(** Property theorems (generated from P_BufferT.v by tools/gen_theorems.py). *)
From Coq Require Import List ZArith Bool Lia Permutation Sorted.
From Verif Require Import M_Buffer M_BufferModes S_Buffer P_Buffer P_Buffer2 P_BufferModes P_BufferT.
Import ListNotations.
Open Scope Z_scope.

(** Whatever is appended, successive get() calls never raise and return non-empty
    sets, each of a single timestamp, in strictly increasing order. *)
Theorem C01_emission_strictly_increasing :
  forall F (M : ops F) C fl os, built F M C fl -> Forall app_or_get os ->
  exists s outs, run M C (init C fl) os = Ok (s, outs) /\
    strictly_increasing (o_fom M) outs /\ Forall (one_stamp (o_fom M)) outs.
Proof. exact C01_emission_strictly_increasing_proof. Qed.
Print Assumptions C01_emission_strictly_increasing.

(** A concrete history: out-of-order arrival, three sets in increasing order. *)
Example C01_example :
  built tbx_frame tbx_ops ex_tbx_cfg 0 /\
  outputs (run tbx_ops ex_tbx_cfg (init ex_tbx_cfg 0)
    [OAppend [ex_tbx 300; ex_tbx 100]; OGet; OAppend [ex_tbx 200]; OGet; OAppend [ex_tbx 400]; OGet])
  = Ok [[ex_tbx 100]; [ex_tbx 200]; [ex_tbx 300]].
Proof. exact C01_example_proof. Qed.

(** Complete behaviour of get(): it is determined by the frames appended so far
    and the timestamp [d] of the last set returned. With [T] the timestamps of
    appended frames newer than [d]: if [T] has fewer than nsegments elements
    nothing is returned and nothing changes; otherwise the set is built from
    exactly the frames stamped with the smallest element of [T]: each of them is
    returned, up to the duplicate filter, and what else is returned are invalid
    fill frames. *)
Theorem C01_get_determined_by_history :
  forall F (M : ops F) C fl os s outs, built F M C fl -> Forall app_or_get os ->
  run M C (init C fl) os = Ok (s, outs) ->
  let d := last_stamp (o_fom M) fl outs in
  let T := stamps_after (o_fom M) (appended os) d in
  ((length T < c_nseg C)%nat -> get M C s = Ok (s, None)) /\
  ((c_nseg C <= length T)%nat -> exists t s' out, In t T /\ (forall x, In x T -> t <= x) /\
     get M C s = Ok (s', Some out) /\
     (forall f, In f out -> o_fom M f = t) /\
     (forall f, In f out -> In f (at_stamp (o_fom M) (appended os) t) \/ o_valid M f = false) /\
     (forall f, In f (at_stamp (o_fom M) (appended os) t) ->
        In f out \/ exists g, In g out /\ In g (at_stamp (o_fom M) (appended os) t) /\ o_did M g = o_did M f)).
Proof. exact C01_get_determined_by_history_proof. Qed.
Print Assumptions C01_get_determined_by_history.

(** A frame not newer than a frame already returned is dropped: the only state
    change is dropped + 1, and no later output is affected. *)
Theorem C02_late_frame_is_dropped :
  forall F (M : ops F) C fl os s outs set g f os',
  built F M C fl -> Forall app_or_get os -> run M C (init C fl) os = Ok (s, outs) ->
  In set outs -> In g set -> o_fom M f <= o_fom M g ->
  (exists s', run M C (init C fl) (os ++ [OAppend [f]]) = Ok (s', outs) /\ one_more_dropped s s') /\
  outputs (run M C (init C fl) (os ++ OAppend [f] :: os')) = outputs (run M C (init C fl) (os ++ os')).
Proof. exact C02_late_frame_is_dropped_proof. Qed.
Print Assumptions C02_late_frame_is_dropped.

(** A frame newer than everything returned is kept, and counted nowhere. *)
Theorem C02_new_frame_is_kept :
  forall F (M : ops F) C fl os s outs f,
  built F M C fl -> Forall app_or_get os -> run M C (init C fl) os = Ok (s, outs) ->
  last_stamp (o_fom M) fl outs < o_fom M f ->
  exists s', run M C (init C fl) (os ++ [OAppend [f]]) = Ok (s', outs) /\
    Permutation (still_buffered s') (f :: still_buffered s) /\
    s_dropped s' = s_dropped s /\ s_full s' = s_full s /\ s_partial s' = s_partial s /\ s_missing s' = s_missing s.
Proof. exact C02_new_frame_is_kept_proof. Qed.
Print Assumptions C02_new_frame_is_kept.

(** The hypotheses are met: after emitting 100, frame 100 is late. *)
Example C02_example :
  exists s, run tbx_ops ex_tbx_cfg (init ex_tbx_cfg 0) [OAppend [ex_tbx 300; ex_tbx 100]; OGet]
     = Ok (s, [[ex_tbx 100]]) /\ s_dropped s = 0 /\
  exists s', run tbx_ops ex_tbx_cfg (init ex_tbx_cfg 0) [OAppend [ex_tbx 300; ex_tbx 100]; OGet; OAppend [ex_tbx 100]]
     = Ok (s', [[ex_tbx 100]]) /\ s_dropped s' = 1.
Proof. exact C02_example_proof. Qed.

(** Every appended frame is exactly one of: dropped (and counted), still
    buffered, or returned; every other returned frame is an invalid fill frame;
    full + partial counts the sets returned. *)
Theorem C03_frames_conserved :
  forall F (M : ops F) C fl os s outs, built F M C fl -> Forall no_reset os ->
  Forall (fun f => o_valid M f = true) (appended os) ->
  run M C (init C fl) os = Ok (s, outs) ->
  exists dropped_frames, s_dropped s = Z.of_nat (length dropped_frames) /\
    Permutation (appended os) (dropped_frames ++ still_buffered s ++ filter (o_valid M) (concat outs)) /\
    s_full s + s_partial s = Z.of_nat (length outs).
Proof. exact C03_frames_conserved_proof. Qed.
Print Assumptions C03_frames_conserved.

(** No history, resets included, makes the buffer raise. *)
Theorem C03_never_raises :
  forall F (M : ops F) C fl os, built_distinct F M C fl ->
  exists s outs, run M C (init C fl) os = Ok (s, outs).
Proof. exact C03_never_raises_proof. Qed.
Print Assumptions C03_never_raises.

Example C03_example :
  exists s, run tbx_ops ex_tbx_cfg (init ex_tbx_cfg 0)
    [OAppend [ex_tbx 300; ex_tbx 100]; OGet; OAppend [ex_tbx 50; ex_tbx 400]; OFlush; OAppend [ex_tbx 500]]
    = Ok (s, [[ex_tbx 100]; [ex_tbx 300]; [ex_tbx 400]]) /\ s_dropped s = 1 /\ still_buffered s = [ex_tbx 500].
Proof. exact C03_example_proof. Qed.

(** If no two appended frames carry the same timestamp and identifier and all
    identifiers are expected, every set returned by get() or flush() has exactly
    one frame per expected identifier, all of one timestamp, and "missing" is
    the number of invalid (fill) frames returned. *)
Theorem C04_sets_are_complete_partial :
  forall F (M : ops F) C fl os s outs, built_distinct F M C fl -> Forall no_reset os ->
  Forall (fun f => o_valid M f = true) (appended os) ->
  (forall f, In f (appended os) -> In (o_mid M f) (c_possible C)) ->
  NoDup (map (fun f => (o_fom M f, o_mid M f)) (appended os)) ->
  run M C (init C fl) os = Ok (s, outs) ->
  Forall (fun o => one_per_id (o_mid M) (c_possible C) o /\ one_stamp (o_fom M) o) outs /\
  s_missing s = count_invalid (o_valid M) (concat outs).
Proof. exact C04_sets_are_complete_partial_proof. Qed.
Print Assumptions C04_sets_are_complete_partial.

Example C04_example :
  built_distinct drx_frame (drx_ops 0) ex_drx_cfg drx_floor /\
  exists s, run (drx_ops 0) ex_drx_cfg (init ex_drx_cfg drx_floor)
    [OAppend [ex_drx 1 1 0 10; ex_drx 1 1 1 10]; OGet] =
    Ok (s, [[ex_drx 1 1 0 10; ex_drx 1 1 1 10;
             mkDrx (drx_pack 0 1 2 0) (drx_floor + 10) [Fin 0; Fin 0] false;
             mkDrx (drx_pack 0 1 2 1) (drx_floor + 10) [Fin 0; Fin 0] false]]) /\ s_missing s = 2.
Proof. exact C04_example_proof. Qed.

(** Without the no-duplicates hypothesis the property fails: a duplicated
    packet that makes the count reach nFrames is returned as a "full" set in
    which one tuning/polarisation is missing and another is present twice. *)
Theorem C04_complete_refuted_count :
  exists os s o, built_distinct drx_frame (drx_ops 0) ex_drx_cfg drx_floor /\
    Forall no_reset os /\ Forall (fun f => dx_valid f = true) (appended os) /\
    (forall f, In f (appended os) -> In (o_mid (drx_ops 0) f) (c_possible ex_drx_cfg)) /\
    run (drx_ops 0) ex_drx_cfg (init ex_drx_cfg drx_floor) os = Ok (s, [o]) /\
    s_full s = 1 /\ s_missing s = 0 /\
    ~ In [1; 2; 1] (map (o_mid (drx_ops 0)) o).
Proof. exact C04_complete_refuted_count_proof. Qed.
Print Assumptions C04_complete_refuted_count.

(** ... and in a partial set a duplicate leaves more frames than expected and
    a "missing" counter smaller than the number of fill frames. *)
Theorem C04_complete_refuted_partial :
  exists os s o, built_distinct drx_frame (drx_ops 0) ex_drx_cfg drx_floor /\
    Forall no_reset os /\ Forall (fun f => dx_valid f = true) (appended os) /\
    (forall f, In f (appended os) -> In (o_mid (drx_ops 0) f) (c_possible ex_drx_cfg)) /\
    run (drx_ops 0) ex_drx_cfg (init ex_drx_cfg drx_floor) os = Ok (s, [o]) /\
    length o = 5%nat /\ s_missing s = 1 /\ count_invalid dx_valid o = 2.
Proof. exact C04_complete_refuted_partial_proof. Qed.
Print Assumptions C04_complete_refuted_partial.

(** COR: as soon as one set with two or more start channels holds more than
    nFrames frames, the duplicate filter (which ignores the channel) removes
    distinct frames: the set returned never has one frame per expected id. *)
Theorem C04_cor_overfull_loses_frames :
  forall chans c re fs t s o, NoDup chans -> (2 <= length chans)%nat -> cor_cfg chans 1 re = Ok c ->
  0 < t -> (forall f, In f fs -> c_tt f = t /\ In [c_s0 f; c_s1 f; c_chan f] (c_possible c)) ->
  (c_nframes c < length fs)%nat ->
  run cor_ops c (init c 0) [OAppend fs; OGet] = Ok (s, [o]) ->
  (length o < c_nframes c)%nat /\ ~ one_per_id (o_mid cor_ops) (c_possible c) o.
Proof. exact C04_cor_overfull_loses_frames_proof. Qed.
Print Assumptions C04_cor_overfull_loses_frames.

(** Such a set exists: all expected frames of two start channels, one of them twice. *)
Example C04_cor_overfull_example :
  exists c fs, cor_cfg [0; 132] 1 false = Ok c /\
   (forall f, In f fs -> c_tt f = 7 /\ In [c_s0 f; c_s1 f; c_chan f] (c_possible c)) /\
   (c_nframes c < length fs)%nat.
Proof. exact C04_cor_overfull_example_proof. Qed.

(** Fill frames carry zeros: DRX, DRX8, VDIF and TBX always (their samples are
    finite); for COR when the template frame has finite data. *)
Theorem C04_fill_is_zero :
  forall t i, (forall x, In x (c_data t) -> exists z, x = Fin z) ->
  Forall (fun x => x = Fin 0) (c_data (cor_fill t i)) /\ length (c_data (cor_fill t i)) = length (c_data t) /\
  c_valid (cor_fill t i) = false /\ c_tt (cor_fill t i) = c_tt t.
Proof. exact C04_fill_is_zero_proof. Qed.
Print Assumptions C04_fill_is_zero.

(** A COR template with a NaN or infinite visibility gives NaN "zero" frames. *)
Theorem C04_fill_is_zero_refuted :
  exists t i, c_valid t = true /\ In NaN (c_data (cor_fill t i)).
Proof. exact C04_fill_is_zero_refuted_proof. Qed.
Print Assumptions C04_fill_is_zero_refuted.

(** Exhausting flush() empties the buffer and returns one set per buffered timestamp. *)
Theorem C05_flush_drains :
  forall F (M : ops F) C fl os s outs, built_distinct F M C fl -> run M C (init C fl) os = Ok (s, outs) ->
  exists s' sets, flush M C s = Ok (s', sets) /\ is_empty s' = true /\ get M C s' = Ok (s', None) /\
    length sets = length (s_buf s) /\
    Forall2 (fun k o => o <> [] /\ forall f, In f o -> o_fom M f = k) (keys (s_buf s)) sets /\
    NoDup (keys (s_buf s)) /\
    (forall f, In f (still_buffered s) -> exists o g, In o sets /\ In g o /\ o_fom M g = o_fom M f).
Proof. exact C05_flush_drains_proof. Qed.
Print Assumptions C05_flush_drains.

(** The sets come out in arrival order of the timestamps, not in time order,
    and a timestamp already returned can then be accepted and returned again. *)
Theorem C05_flush_order_refuted :
  exists os sets, built_distinct tbx_frame tbx_ops ex_tbx_cfg 0 /\ Forall no_reset os /\
    outputs (run tbx_ops ex_tbx_cfg (init ex_tbx_cfg 0) os) = Ok sets /\
    map (map x_tt) sets = [[300]; [100]; [300]].
Proof. exact C05_flush_order_refuted_proof. Qed.
Print Assumptions C05_flush_order_refuted.

(** get() returns nothing and changes nothing exactly when fewer than nsegments
    timestamps are buffered; otherwise it removes exactly one timestamp, the oldest. *)
Theorem C06_get_waits_until_full :
  forall F (M : ops F) C fl os s outs, built F M C fl -> Forall app_or_get os ->
  run M C (init C fl) os = Ok (s, outs) ->
  ((length (s_buf s) < c_nseg C)%nat <-> get M C s = Ok (s, None)) /\
  ((c_nseg C <= length (s_buf s))%nat -> exists k s' o, get M C s = Ok (s', Some o) /\
     In k (keys (s_buf s)) /\ (forall x, In x (keys (s_buf s)) -> k <= x) /\
     (forall x, In x (keys (s_buf s')) <-> x <> k /\ In x (keys (s_buf s))) /\
     S (length (s_buf s')) = length (s_buf s)).
Proof. exact C06_get_waits_until_full_proof. Qed.
Print Assumptions C06_get_waits_until_full.

(** If each append() carries frames of one timestamp and is followed by a get(),
    the buffer never holds more than nsegments - 1 timestamps after the get. *)
Theorem C06_memory_bounded :
  forall F (M : ops F) C fl fss s outs, built F M C fl ->
  Forall (fun fs => forall f g, In f fs -> In g fs -> o_fom M f = o_fom M g) fss ->
  run M C (init C fl) (rounds fss) = Ok (s, outs) -> (length (s_buf s) <= c_nseg C - 1)%nat.
Proof. exact C06_memory_bounded_proof. Qed.
Print Assumptions C06_memory_bounded.

Example C06_example :
  exists s, run tbx_ops ex_tbx_cfg (init ex_tbx_cfg 0) (rounds [[ex_tbx 100]; [ex_tbx 200]; [ex_tbx 300]])
   = Ok (s, [[ex_tbx 100]; [ex_tbx 200]]) /\ length (s_buf s) = 1%nat.
Proof. exact C06_example_proof. Qed.

(** The advertised number of frames of a complete set is the number of expected
    identifiers: beams x tunings x pols, n(n+1)/2 baselines x channels, threads, channels. *)
Theorem C07_counts :
  (forall beams tunes pols n re c, NoDup beams -> NoDup tunes -> NoDup pols ->
     drx_cfg beams tunes pols n re = Ok c ->
     c_nframes c = length (c_possible c) /\ NoDup (c_possible c) /\
     c_nframes c = (length beams * length tunes * length pols)%nat /\
     (forall i, In i (c_possible c) <-> exists b u p, i = [b; u; p] /\ In b beams /\ In u tunes /\ In p pols)) /\
  (forall stands chans n re c, NoDup stands -> NoDup chans -> cor_cfg_of stands chans n re = Ok c ->
     c_nframes c = length (c_possible c) /\ NoDup (c_possible c) /\
     c_nframes c = (length stands * (length stands + 1) / 2 * length chans)%nat /\
     (forall i, In i (c_possible c) <-> exists a b ch, i = [a; b; ch] /\ In a stands /\ In b stands /\ a <= b /\ In ch chans)) /\
  (forall threads n re c, NoDup threads -> vdif_cfg threads n re = Ok c ->
     c_nframes c = length (c_possible c) /\ NoDup (c_possible c) /\ c_nframes c = length threads /\
     (forall i, In i (c_possible c) <-> exists t, i = [t] /\ In t threads)) /\
  (forall chans n re c, NoDup chans -> tbx_cfg chans n re = Ok c ->
     c_nframes c = length (c_possible c) /\ NoDup (c_possible c) /\ c_nframes c = length chans /\
     (forall i, In i (c_possible c) <-> exists t, i = [t] /\ In t chans)).
Proof. exact C07_counts_proof. Qed.
Print Assumptions C07_counts.

(** COR, VDIF and TBX: after reset() the buffer behaves like a new one. *)
Theorem C08_reset_like_new_partial :
  forall F (M : ops F) C fl os s outs os', built F M C fl -> fl = 0 ->
  run M C (init C fl) os = Ok (s, outs) ->
  outputs (run M C (init C fl) (os ++ OReset :: os')) =
    match outputs (run M C (init C fl) os') with Ok o => Ok (outs ++ o) | Raise e => Raise e end.
Proof. exact C08_reset_like_new_partial_proof. Qed.
Print Assumptions C08_reset_like_new_partial.

(** DRX and DRX8: the same holds as long as all later frames are newer than the 1980 floor. *)
Theorem C08_reset_like_new_after_1980_partial :
  forall F (M : ops F) C fl os s outs os', built F M C fl ->
  run M C (init C fl) os = Ok (s, outs) -> Forall (fun f => fl < o_fom M f) (appended os') ->
  outputs (run M C (init C fl) (os ++ OReset :: os')) =
    match outputs (run M C (init C fl) os') with Ok o => Ok (outs ++ o) | Raise e => Raise e end.
Proof. exact C08_reset_like_new_after_1980_partial_proof. Qed.
Print Assumptions C08_reset_like_new_after_1980_partial.

(** DRX: a frame from before 1980 is refused by a new buffer but accepted after reset(). *)
Theorem C08_reset_like_new_refuted :
  exists os', built_distinct drx_frame (drx_ops 0) ex_drx_cfg drx_floor /\
    outputs (run (drx_ops 0) ex_drx_cfg (init ex_drx_cfg drx_floor) os') = Ok [] /\
    outputs (run (drx_ops 0) ex_drx_cfg (init ex_drx_cfg drx_floor) ([] ++ OReset :: os')) <> Ok [].
Proof. exact C08_reset_like_new_refuted_proof. Qed.
Print Assumptions C08_reset_like_new_refuted.

(** With reorder the set returned is the stable sort of the set returned without. *)
Theorem C09_reorder_is_stable_sort :
  forall F (M : ops F) n nf pos s k s' o, 
  get_key M (mkCfg n true nf pos) s k = Ok (s', o) ->
  exists s'' o', get_key M (mkCfg n false nf pos) s k = Ok (s'', o') /\ s'' = s' /\
    Permutation o o' /\ StronglySorted (fun a b => o_cmp M a <= o_cmp M b) o /\
    forall v, filter (fun x => o_cmp M x =? v) o = filter (fun x => o_cmp M x =? v) o'.
Proof. exact C09_reorder_is_stable_sort_proof. Qed.
Print Assumptions C09_reorder_is_stable_sort.

(** The compared key orders DRX identifiers (beam, tuning, pol) alphabetically,
    including tunings 1, 2 and TBX channels numerically. *)
Theorem C09_key_is_id_order_partial :
  (forall a b c a' b' c', 1 <= b <= 4096 -> 1 <= b' <= 4096 -> 0 <= c < 4096 -> 0 <= c' < 4096 ->
     (cmp_key [a; b; c] < cmp_key [a'; b'; c'] <-> lex_lt [a; b; c] [a'; b'; c'])) /\
  (forall a a', cmp_key [a] < cmp_key [a'] <-> lex_lt [a] [a']) /\
  (forall s t t', cmp_key [s; t] < cmp_key [s; t'] <-> lex_lt [s; t] [s; t']).
Proof. exact C09_key_is_id_order_partial_proof. Qed.
Print Assumptions C09_key_is_id_order_partial.

(** For two-element identifiers (COR stand pairs, VDIF station/thread) the key is
    not the identifier order: stands (1,3) and (2,1) tie, (1,4) sorts after (2,1). *)
Theorem C09_key_is_id_order_refuted :
  (exists a b a' b', lex_lt [a; b] [a'; b'] /\ 1 <= a <= 256 /\ a <= b <= 256 /\ 1 <= a' <= 256 /\ a' <= b' <= 256 /\
     cmp_key [a'; b'] < cmp_key [a; b]) /\
  (exists a b a' b', [a; b] <> [a'; b'] /\ 1 <= a <= 256 /\ a <= b <= 256 /\ 1 <= a' <= 256 /\ a' <= b' <= 256 /\
     cmp_key [a'; b'] = cmp_key [a; b]).
Proof. exact C09_key_is_id_order_refuted_proof. Qed.
Print Assumptions C09_key_is_id_order_refuted.
