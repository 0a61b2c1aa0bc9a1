(** Property theorems (generated from P_DedispT.v by tools/gen_theorems.py). *)
From Coq Require Import String.
From Coq Require Import List ZArith QArith Qabs Qcanon Bool Lia.
From Verif Require Import LibList M_Dedisp S_Dedisp P_Base P_Dedisp P_Dedisp2 P_Dedisp3 P_Dedisp4 P_Dedisp5 P_DedispT.
Import ListNotations.
Open Scope Z_scope.

(** Every channel is moved by its delay, and with the opposite dispersion measure by as much in the other direction.
    [ds] are the delays in integrations (shifts_for). *)
Theorem C65_wrap : forall (A : Type) times0 freq (w : list (list A)) tInt dm fill,
  (2 <= length freq)%nat -> (forall f, In f freq -> (0 < f)%Q) -> (0 < tInt)%Q -> (0 <= dm)%Q -> length w = length freq ->
  exists ds out out', shifts_for freq tInt dm ds /\
    incoherent times0 freq w tInt dm "wrap" fill = Ok out /\ channels wrapped ds w out /\
    incoherent times0 freq w tInt (- dm) "wrap" fill = Ok out' /\ channels wrapped (map Z.opp ds) w out'.
Proof. exact C65_wrap_proof. Qed.
Print Assumptions C65_wrap.

(** With boundary='fill' the samples that were not recorded become the fill value. *)
Theorem C65_fill : forall (A : Type) times0 freq (w : list (list A)) tInt dm fill,
  (2 <= length freq)%nat -> (forall f, In f freq -> (0 < f)%Q) -> (0 < tInt)%Q -> (0 <= dm)%Q -> length w = length freq ->
  exists ds out, shifts_for freq tInt dm ds /\ incoherent times0 freq w tInt dm "fill" fill = Ok out /\ channels (filled fill) ds w out.
Proof. exact C65_fill_proof. Qed.
Print Assumptions C65_fill.

Example C65_fill_example : incoherent (fun _ => 0) ex_freq [[1; 2; 3; 4; 5]; [1; 2; 3; 4; 5]] 1 1 "fill" (-1) = Ok [[4; 5; -1; -1; -1]; [1; 2; 3; 4; 5]] /\
  incoherent (fun _ => 0) ex_freq [[1; 2; 3; 4; 5]; [1; 2; 3; 4; 5]] 1 1 "wrap" (-1) = Ok [[4; 5; 1; 2; 3]; [1; 2; 3; 4; 5]].
Proof. exact C65_fill_example_proof. Qed.

(** Undoing it: dedispersion with the opposite dispersion measure gives back exactly the waterfall, in double
    precision, for every dispersion measure and integration time. *)
Theorem C65_round_trip : forall (A : Type) times0 freq (w w' : list (list A)) tInt dm fill,
  (2 <= length freq)%nat -> length w = length freq ->
  incoherent times0 freq w tInt dm "wrap" fill = Ok w' -> incoherent times0 freq w' tInt (- dm) "wrap" fill = Ok w.
Proof. exact C65_round_trip_proof. Qed.
Print Assumptions C65_round_trip.

(** More channels than frequencies: the others are multiplied by zero; fewer: IndexError; another boundary: ValueError. *)
Theorem C65_other_sizes : forall (A : Type) times0 freq (w rest : list (list A)) tInt dm fill,
  (2 <= length freq)%nat -> length w = length freq ->
  (exists out, incoherent times0 freq w tInt dm "wrap" fill = Ok out /\ incoherent times0 freq (w ++ rest) tInt dm "wrap" fill = Ok (out ++ map (map times0) rest)) /\
  (forall few boundary, (length few < length freq)%nat -> boundary = "wrap"%string \/ boundary = "fill"%string -> incoherent times0 freq few tInt dm boundary fill = Raise IndexError) /\
  (forall boundary, boundary <> "wrap"%string -> boundary <> "fill"%string -> incoherent times0 freq w tInt dm boundary fill = Raise ValueError).
Proof. exact C65_other_sizes_proof. Qed.
Print Assumptions C65_other_sizes.

(** REFUTED: with a negative dispersion measure nothing is filled: the samples come from the other end. *)
Theorem C65_fill_negative_refuted : (forall (A : Type) times0 freq (w : list (list A)) tInt dm fill,
  (2 <= length freq)%nat -> (forall f, In f freq -> (0 < f)%Q) -> (0 < tInt)%Q -> (0 <= dm)%Q ->
  incoherent times0 freq w tInt (- dm) "fill" fill = incoherent times0 freq w tInt (- dm) "wrap" fill) /\
  incoherent (fun _ => 0) ex_freq [[1; 2; 3; 4; 5]; [1; 2; 3; 4; 5]] 1 (-(1)) "fill" (-1) = Ok [[3; 4; 5; 1; 2]; [1; 2; 3; 4; 5]].
Proof. exact C65_fill_negative_refuted_proof. Qed.
Print Assumptions C65_fill_negative_refuted.

(** REFUTED: a waterfall with a single frequency cannot be dedispersed. *)
Theorem C65_single_frequency_refuted : forall (A : Type) times0 f (w : list (list A)) tInt dm fill,
  incoherent times0 [f] w tInt dm "wrap" fill = Raise TypeError.
Proof. exact C65_single_frequency_refuted_proof. Qed.
Print Assumptions C65_single_frequency_refuted.

(** What coherent() returns, sample by sample: the time and the windowed sample where the block is not left out, zero
    elsewhere.  [dd] is what is done to a window, [N] its (even) size. *)
Theorem C66_samples : forall (T A : Type) zT zA N dd (t : list T) (x : list A) prev next,
  0 < N -> N mod 2 = 0 -> N <= zlen x -> zlen t = zlen x -> (forall y, zlen y = N -> zlen (dd y) = N) ->
  enough (N / 4) prev -> enough (N * (zlen x / N) + N - N / 4 - zlen x) next ->
  exists oT oD, coherent_with zT zA N dd t x (option_map fst prev) (option_map snd prev) (option_map fst next) (option_map snd next) = Ok (oT, oD) /\
    zlen oT = zlen x /\ zlen oD = zlen x /\
    forall k, 0 <= k < zlen x ->
      znth zT k oT = (if left_out N (zlen x) prev next k then zT else znth zT k t) /\
      znth zA k oD = (if left_out N (zlen x) prev next k then zA else windowed zA N dd (stream zA (option_map snd prev) x (option_map snd next)) k).
Proof. exact C66_samples_proof. Qed.
Print Assumptions C66_samples.

(** With an impulse response of at most a quarter window to either side, windows do not show: every sample that is not
    left out is the convolution of the stream of previous, given and next data. *)
Theorem C66_convolution : forall (T : Type) zT N h (t : list T) x prev next,
  0 < N -> N mod 2 = 0 -> N <= zlen x -> zlen t = zlen x -> (forall j, N / 4 < j < N - N / 4 -> h j = czero) ->
  enough (N / 4) prev -> enough (N * (zlen x / N) + N - N / 4 - zlen x) next ->
  exists oT oD, coherent_with zT czero N (circular N h) t x (option_map fst prev) (option_map snd prev) (option_map fst next) (option_map snd next) = Ok (oT, oD) /\
    zlen oD = zlen x /\
    forall k, 0 <= k < zlen x -> left_out N (zlen x) prev next k = false ->
      znth czero k oD = convolved (N / 4) (fun j => h (j mod N)) (stream czero (option_map snd prev) x (option_map snd next)) k.
Proof. exact C66_convolution_proof. Qed.
Print Assumptions C66_convolution.

(** In pieces: pieces of whole half windows, each with its neighbours as previous and next data, give together exactly
    what one call for all of them gives. *)
Theorem C66_pieces : forall (T A : Type) zT zA N dd (l : list (list T * list A)) prev next,
  0 < N -> N mod 2 = 0 -> (forall y, zlen y = N -> zlen (dd y) = N) -> l <> [] ->
  Forall (fun p => zlen (fst p) = zlen (snd p) /\ N <= zlen (snd p) /\ zlen (snd p) mod (N / 2) = 0) l ->
  enough N prev -> enough N next -> next <> None ->
  piecewise (coherent_with zT zA N dd) prev l next = whole (coherent_with zT zA N dd) prev l next.
Proof. exact C66_pieces_proof. Qed.
Print Assumptions C66_pieces.

(** With an impulse response of at most a quarter window to either side the same holds for pieces of any length that
    leave at most half a window over. *)
Theorem C66_pieces_convolution : forall (T : Type) zT N h (l : list (list T * list cplx)) prev next,
  0 < N -> N mod 2 = 0 -> (forall j, N / 4 < j < N - N / 4 -> h j = czero) -> l <> [] ->
  Forall (fun p => zlen (fst p) = zlen (snd p) /\ N <= zlen (snd p) /\ zlen (snd p) mod N <= N / 2) l ->
  zlen (concat (map snd l)) mod N <= N / 2 -> enough N prev -> enough N next -> next <> None ->
  piecewise (coherent_with zT czero N (circular N h)) prev l next = whole (coherent_with zT czero N (circular N h)) prev l next.
Proof. exact C66_pieces_convolution_proof. Qed.
Print Assumptions C66_pieces_convolution.

Example C66_pieces_example : (forall j, 4 / 4 < j < 4 - 4 / 4 -> ex_h j = czero) /\
  piecewise (coherent_with 0 czero 4 (circular 4 ex_h)) (Some (range 0 4, ex_x 0)) [(range 4 8, ex_x 4); (range 8 12, ex_x 8)] (Some (range 12 16, ex_x 12))
  = Ok (range 4 12, map (fun i => ex_sum i (i + 1)) (range 5 13)).
Proof. exact C66_pieces_example_proof. Qed.

(** Previous or next data that is too short (and not of length one) is an error, as are fewer samples than a window. *)
Theorem C66_too_short : forall (T A : Type) zT zA N dd (t : list T) (x : list A),
  0 < N -> N mod 2 = 0 -> zlen t = zlen x -> (forall y, zlen y = N -> zlen (dd y) = N) ->
  (forall pt pd nt nd, zlen x < N -> coherent_with zT zA N dd t x pt pd nt nd = Raise RuntimeError) /\
  (forall pt pd nt nd, N <= zlen x -> zlen pt = zlen pd -> zlen pd < N / 4 -> zlen pd <> 1 ->
     coherent_with zT zA N dd t x (Some pt) (Some pd) nt nd = Raise RuntimeError) /\
  (forall prev nt nd, N <= zlen x -> enough (N / 4) prev -> zlen nt = zlen nd -> zlen nd < N * (zlen x / N) + N - N / 4 - zlen x -> zlen nd <> 1 ->
     coherent_with zT zA N dd t x (option_map fst prev) (option_map snd prev) (Some nt) (Some nd) = Raise RuntimeError).
Proof. exact C66_too_short_proof. Qed.
Print Assumptions C66_too_short.

(** REFUTED: previous data of a single sample, too short as it is, is accepted and taken for as many equal samples as
    are needed. *)
Theorem C66_single_previous_refuted : forall z x1 x2 x3 x4 x5 x6 x7 x8 p : Z, let x := [x1; x2; x3; x4; x5; x6; x7; x8] in
  zlen [p] < 8 / 4 /\
  coherent_with 0 z 8 (fun y => rev y) (range 0 8) x (Some [0]) (Some [p]) None None = coherent_with 0 z 8 (fun y => rev y) (range 0 8) x (Some [0; 0]) (Some [p; p]) None None /\
  exists o, coherent_with 0 z 8 (fun y => rev y) (range 0 8) x (Some [0]) (Some [p]) None None = Ok o.
Proof. exact C66_single_previous_refuted_proof. Qed.
Print Assumptions C66_single_previous_refuted.

(** REFUTED: samples more than half a window behind the last whole window stay zero although next data is there. *)
Theorem C66_remainder_refuted : (forall (T A : Type) zT zA N dd (t : list T) (x : list A) prev next k,
  0 < N -> N mod 2 = 0 -> N <= zlen x -> zlen t = zlen x -> (forall y, zlen y = N -> zlen (dd y) = N) ->
  enough (N / 4) prev -> enough N next -> N * (zlen x / N) + N / 2 <= k < zlen x ->
  exists oT oD, coherent_with zT zA N dd t x (option_map fst prev) (option_map snd prev) (option_map fst next) (option_map snd next) = Ok (oT, oD) /\
    znth zT k oT = zT /\ znth zA k oD = zA) /\
  coherent_with 0 0 4 (fun y => y) (range 1 8) (range 1 8) (Some (range (-3) 1)) (Some (range (-3) 1)) (Some (range 8 12)) (Some (range 8 12)) = Ok ([1; 2; 3; 4; 5; 6; 0], [1; 2; 3; 4; 5; 6; 0]).
Proof. exact C66_remainder_refuted_proof. Qed.
Print Assumptions C66_remainder_refuted.

(** REFUTED: without next data the last block is not left out if few samples remain: it is made with zeros in place of
    the data that is missing.  Here each sample is to be the sum of two successive ones; the last of 3 + 4, 4 + ? is
    given as 4. *)
Theorem C66_end_refuted : coherent_with 0 czero 4 (circular 4 ex_h) (range 0 4) (ex_x 0) None None None None
  = Ok ([0; 0; 2; 3], [czero; czero; ex_sum 3 4; ex_sum 4 0]).
Proof. exact C66_end_refuted_proof. Qed.
Print Assumptions C66_end_refuted.

(** The result of a call does not depend on the calls made before it, on their enable_caching or on its own. *)
Theorem C67_history : forall (K V R : Type) keq (compute : K -> res V) earlier k enable (rest : V -> res R),
  (forall k k', keq k k' = true -> compute k = compute k') ->
  snd (call keq compute (after_calls keq compute [] earlier) k enable rest) = bind (compute k) rest.
Proof. exact C67_history_proof. Qed.
Print Assumptions C67_history.

Example C67_history_example : let compute := fun k => if k =? 0 then Raise ZeroDivisionError else Ok (10 * k) in
  after_calls Z.eqb compute [] [(1, true); (2, false); (0, true); (1, true)] = [(1, 10)] /\
  snd (call Z.eqb compute (after_calls Z.eqb compute [] [(1, true); (2, false); (0, true); (1, true)]) 1 false (fun v => Ok v)) = Ok 10.
Proof. exact C67_history_example_proof. Qed.

(** The window: half of it covers the delay across the band, and not twice more than that. *)
Theorem C67_window_size_partial : forall F0 BW dm,
  let samples := (true_delay dm (F0 - BW / 2) (F0 + BW / 2) * BW)%Q in (1 < samples)%Q ->
  exists half, get_coherent_sample_size F0 BW dm = Ok (2 * half) /\ 0 < half /\ (samples <= inject_Z half)%Q /\ (inject_Z half < 2 * samples)%Q.
Proof. exact C67_window_size_partial_proof. Qed.
Print Assumptions C67_window_size_partial.

Example C67_window_size_example : get_coherent_sample_size 74000000 100000 10 = Ok 4096.
Proof. exact C67_window_size_example_proof. Qed.

(** REFUTED: a delay of at most half a sample makes a window of one sample, and then every result is zero, whatever
    the data is. *)
Theorem C67_small_dm_refuted : get_coherent_sample_size 74000000 100000 (1 # 500) = Ok 1 /\
  forall (T A : Type) (zT : T) (zA : A) dd t x pt pd nt nd, x <> [] -> zlen t = zlen x ->
    coherent_with zT zA 1 dd t x pt pd nt nd = Ok (zeros zT (zlen x), zeros zA (zlen x)).
Proof. exact C67_small_dm_refuted_proof. Qed.
Print Assumptions C67_small_dm_refuted.

(** REFUTED: without dispersion there is no window, and the call fails instead of returning the data; with a negative
    dispersion measure there is no window either. *)
Theorem C67_no_dispersion_refuted : (forall F0 BW, get_coherent_sample_size F0 BW 0 = Ok 0) /\
  (forall (T A : Type) (zT : T) (zA : A) dd t x pt pd nt nd, coherent_with zT zA 0 dd t x pt pd nt nd = Raise ZeroDivisionError) /\
  get_coherent_sample_size 74000000 100000 (-(10)) = Raise ValueError.
Proof. exact C67_no_dispersion_refuted_proof. Qed.
Print Assumptions C67_no_dispersion_refuted.
