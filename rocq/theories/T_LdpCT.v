(** Property theorems (generated from P_LdpCTT.v by tools/gen_theorems.py). *)
From Coq Require Import List ZArith Bool Lia Permutation QArith_base Qround.
From Verif Require Import M_LdpCT S_LdpCT S_Buffer P_Buffer P_BufferModes P_Flt P_Astro P_LdpSets P_LdpCTT.
Import ListNotations.
Open Scope Z_scope.

(** C72: a COR recording without missing integrations, frames possibly late or missing, is returned by any sequence of read() calls
    integration by integration, once each, in time order, every baseline and channel in its row, zeros where a frame is missing; then comes EOFError.
    The step between integrations is the one the reader computes. *)
Theorem C72_cor_in_order : forall stands chans nseg re C navg ignore file t0 N L pos ns, NoDup chans -> chans <> [] -> (1 <= stands)%nat -> (2 <= nseg)%nat ->
  cor_cfg_of (stand_list stands) chans nseg re = Ok C ->
  cor_skip navg = navg * 1960000 ->
  recording c_tt c_data file t0 (navg * 1960000) (seq 0 N) L -> in_window c_tt nseg file -> ids_once c_tt cid (cor_id stands chans) file ->
  Forall (fun n => (1 <= n)%nat) ns ->
  in_order c_tt cid c_data (cor_id stands chans) (length chans * (stands * (stands + 1) / 2)) (cor_row stands chans) file t0 (navg * 1960000) L N 0 ns
    (calls (fun n => cor_read cor_ops C c_data (cor_place stands chans) (cor_fpo stands chans) (cor_skip navg) ignore (Some n)) ns (open_cf C pos file)).
Proof. exact C72_cor_in_order_proof. Qed.
Print Assumptions C72_cor_in_order.

Example C72_cor_in_order_example : exists C, cor_cfg_of (stand_list 2) [4; 8] 3 false = Ok C /\ cor_skip 50 = 50 * 1960000 /\
  recording c_tt c_data ex_cor 1000 (50 * 1960000) (seq 0 3) 1 /\ in_window c_tt 3 ex_cor /\ ids_once c_tt cid (cor_id 2 [4; 8]) ex_cor /\
  calls (fun n => cor_read cor_ops C c_data (cor_place 2 [4; 8]) (cor_fpo 2 [4; 8]) (cor_skip 50) false (Some n)) [2; 2; 1]%nat (open_cf C 0 ex_cor) =
   [Ok (2%nat, Some 1000, [[[Fin 4]; [Fin 7]]; [[Fin 1]; [Fin 0]]; [[Fin 5]; [Fin 0]]; [[Fin 2]; [Fin 8]]; [[Fin 6]; [Fin 9]]; [[Fin 3]; [Fin 0]]]);
    Ok (1%nat, Some (1000 + 2 * 98000000), [[[Fin 10]]; [[Fin 0]]; [[Fin 0]]; [[Fin 0]]; [[Fin 0]]; [[Fin 11]]]); Raise EOFError].
Proof. exact C72_cor_in_order_example_proof. Qed.

(** C72: the time step the reader expects between integrations, int(tint*fS) in double precision, is the right one or
    one tick too small. *)
Theorem C72_cor_step : forall navg, 1 <= navg < 2 ^ 30 -> cor_skip navg = navg * 1960000 \/ cor_skip navg = navg * 1960000 - 1.
Proof. exact C72_cor_step_proof. Qed.
Print Assumptions C72_cor_step.

(** C72: it is one tick too small for integrations of 29 correlator dumps (0.29 s), among others: reading a complete recording raises RuntimeError. *)
Theorem C72_cor_step_refuted : cor_skip 29 = 29 * 1960000 - 1 /\
  let file := [ef 1000 1; ef (1000 + 29 * 1960000) 2; ef (1000 + 58 * 1960000) 3] in
  recording c_tt c_data file 1000 (29 * 1960000) (seq 0 3) 1 /\ in_window c_tt 2 file /\ ids_once c_tt cid (cor_id 1 [4]) file /\
  exists C, cor_cfg_of (stand_list 1) [4] 2 false = Ok C /\
    calls (fun n => cor_read cor_ops C c_data (cor_place 1 [4]) (cor_fpo 1 [4]) (cor_skip 29) false (Some n)) [1; 1]%nat (open_cf C 0 file)
      = [Ok (1%nat, Some 1000, [[[Fin 1]]]); Raise RuntimeError].
Proof. exact C72_cor_step_refuted_proof. Qed.
Print Assumptions C72_cor_step_refuted.

(** C72: read() without a duration, which should load the entire file, raises NameError. *)
Theorem C72_cor_whole_file_refuted : forall stands chans C skip ignore l, nothing_left l = false ->
  cor_read cor_ops C c_data (cor_place stands chans) (cor_fpo stands chans) skip ignore None l = Raise NameError.
Proof. exact C72_cor_whole_file_refuted_proof. Qed.
Print Assumptions C72_cor_whole_file_refuted.

Example C72_cor_whole_file_example : nothing_left (open_cf (mkCfg 2 false 1 [[1; 1; 4]]) 0 [ef 1000 1]) = false.
Proof. exact C72_cor_whole_file_example_proof. Qed.

(** A missing integration is an error, unless time tag errors are ignored: then it is left out. *)
Example C72_cor_gap_example : exists C, cor_cfg_of (stand_list 1) [4] 2 false = Ok C /\
  let file := [ef 1000 1; ef (1000 + 50 * 1960000) 2; ef (1000 + 150 * 1960000) 3; ef (1000 + 200 * 1960000) 4] in
  cor_read cor_ops C c_data (cor_place 1 [4]) (cor_fpo 1 [4]) (cor_skip 50) false (Some 4%nat) (open_cf C 0 file) = Raise RuntimeError /\
  calls (fun n => cor_read cor_ops C c_data (cor_place 1 [4]) (cor_fpo 1 [4]) (cor_skip 50) true (Some n)) [4]%nat (open_cf C 0 file)
    = [Ok (4%nat, Some 1000, [[[Fin 1]; [Fin 2]; [Fin 3]; [Fin 4]]])].
Proof. exact C72_cor_gap_example_proof. Qed.

(** C72: a call that returns, returns at least one integration; whatever the file holds, a file with none left in it gives EOFError or another error. *)
Theorem C72_cor_never_empty : forall C stands chans skip ignore n l l' k t rows, (1 <= n)%nat ->
  cor_read cor_ops C c_data (cor_place stands chans) (cor_fpo stands chans) skip ignore (Some n) l = Ok (l', (k, t, rows)) -> (1 <= k)%nat.
Proof. exact C72_cor_never_empty_proof. Qed.
Print Assumptions C72_cor_never_empty.

(** A file with nothing but a broken frame and a cut-off one in it. *)
Example C72_cor_never_empty_example : exists C, cor_cfg_of (stand_list 1) [4] 2 false = Ok C /\
  (exists l', cor_read cor_ops C c_data (cor_place 1 [4]) (cor_fpo 1 [4]) 1960000 false (Some 1%nat) (open_cf C 0 [ef 1000 1; CTail]) = Ok (l', (1%nat, Some 1000, [[[Fin 1]]]))) /\
  cor_read cor_ops C c_data (cor_place 1 [4]) (cor_fpo 1 [4]) 1960000 false (Some 1%nat) (open_cf C 0 [CBad; CTail]) = Raise EOFError.
Proof. exact C72_cor_never_empty_example_proof. Qed.

(** C73: a TBX recording whose spectra first appear in time order, with single frames late or missing and, in recordings with the
    usual step of 8192, gaps the reader can fill, is returned by any sequence of read() calls (of given numbers of spectra) spectrum by spectrum, once each,
    in time order, with zeros where a frame is missing; then comes EOFError. *)
Theorem C73_tbx_in_order : forall chans nseg re C skip autofill ignore file t0 grid L pos ns, NoDup chans -> chans <> [] -> (2 <= nseg)%nat ->
  tbx_cfg chans nseg re = Ok C -> skip <= 8192 ->
  recording x_tt x_data file t0 skip grid L -> in_window x_tt nseg file -> ids_once x_tt xid (tbx_id chans) file ->
  gaps_fillable nseg (length chans) skip autofill grid file -> short_breaks 40000 file ->
  Forall (fun n => (1 <= n)%nat) ns ->
  in_order x_tt xid x_data (tbx_id chans) (length chans) (tbx_row chans) file t0 skip L (S (last grid 0%nat)) 0 ns
    (calls (fun n l => if nothing_left l then Raise EOFError else
                       tbx_read_n tbx_ops C x_data (tbx_place chans) (length chans) skip ignore tbx_zero_at autofill n l) ns (open_cf C pos file)).
Proof. exact C73_tbx_in_order_proof. Qed.
Print Assumptions C73_tbx_in_order.

(** C73: the time step the reader expects is the right one for both kinds of data, NDP's and those converted from LWA-SV. *)
Theorem C73_tbx_step : tbx_skip 8192 = 8192 /\ tbx_skip 7840 = 7840.
Proof. exact C73_tbx_step_proof. Qed.
Print Assumptions C73_tbx_step.

(** C73: for a complete recording read from the start, read(duration) returns the spectra the duration asks for and read() all that are left. *)
Theorem C73_tbx_durations : forall chans nseg re C skip autofill ignore file t0 N L ws, NoDup chans -> chans <> [] -> (2 <= nseg)%nat ->
  tbx_cfg chans nseg re = Ok C -> skip <= 8192 ->
  recording x_tt x_data file t0 skip (seq 0 N) L -> in_window x_tt nseg file -> ids_once x_tt xid (tbx_id chans) file ->
  short_breaks 40000 file -> length (recorded file) = (N * length chans)%nat ->
  in_order x_tt xid x_data (tbx_id chans) (length chans) (tbx_row chans) file t0 skip L N 0
    (map (fun w => match w with None => N | Some w => Z.to_nat (Z.max w 1) end) ws)
    (calls (tbx_read tbx_ops C x_data (tbx_place chans) (length chans) skip ignore tbx_zero_at autofill (Z.of_nat (length file))) ws (open_cf C 0 file)).
Proof. exact C73_tbx_durations_proof. Qed.
Print Assumptions C73_tbx_durations.

Example C73_tbx_in_order_example : exists C, tbx_cfg [4; 8] 2 true = Ok C /\
  recording x_tt x_data ex_tbx 500 8192 [0; 3; 4; 5; 6; 7]%nat 1 /\ in_window x_tt 2 ex_tbx /\ ids_once x_tt xid (tbx_id [4; 8]) ex_tbx /\
  gaps_fillable 2 2 8192 50 [0; 3; 4; 5; 6; 7]%nat ex_tbx /\ short_breaks 40000 ex_tbx /\
  calls (fun n l => if nothing_left l then Raise EOFError else tbx_read_n tbx_ops C x_data (tbx_place [4; 8]) 2 8192 false tbx_zero_at 50 n l) [3; 3; 4; 1]%nat (open_cf C 0 ex_tbx) =
   [Ok (3%nat, Some 500, [[[Fin 1]; [Fin 0]; [Fin 0]]; [[Fin 2]; [Fin 0]; [Fin 0]]]);
    Ok (3%nat, Some (500 + 3 * 8192), [[[Fin 4]; [Fin 5]; [Fin 0]]; [[Fin 3]; [Fin 6]; [Fin 7]]]);
    Ok (2%nat, Some (500 + 6 * 8192), [[[Fin 8]; [Fin 11]]; [[Fin 9]; [Fin 10]]]); Raise EOFError].
Proof. exact C73_tbx_in_order_example_proof. Qed.

Example C73_tbx_durations_example : exists C, tbx_cfg [4; 8] 3 true = Ok C /\
  recording x_tt x_data ex_full 500 8192 (seq 0 3) 1 /\ in_window x_tt 3 ex_full /\ ids_once x_tt xid (tbx_id [4; 8]) ex_full /\
  short_breaks 40000 ex_full /\ length (recorded ex_full) = (3 * length [4; 8])%nat /\
  calls (tbx_read tbx_ops C x_data (tbx_place [4; 8]) 2 8192 false tbx_zero_at 50 (Z.of_nat (length ex_full))) [Some 0; None; Some 5] (open_cf C 0 ex_full) =
   [Ok (1%nat, Some 500, [[[Fin 1]]; [[Fin 2]]]);
    Ok (2%nat, Some (500 + 8192), [[[Fin 5]; [Fin 6]]; [[Fin 3]; [Fin 4]]]); Raise EOFError].
Proof. exact C73_tbx_durations_example_proof. Qed.

(** C73: after offset() the number of frames is counted from the new position but compared with the position in the
    whole file: from the second half of the file on, read() raises ValueError. *)
Theorem C73_tbx_after_offset_refuted : forall chans C skip autofill ignore pos rest want, (1 <= length chans)%nat -> rest <> [] ->
  Z.of_nat (length rest) < pos ->
  tbx_read tbx_ops C x_data (tbx_place chans) (length chans) skip ignore tbx_zero_at autofill (Z.of_nat (length rest)) want (open_cf C pos rest) = Raise ValueError.
Proof. exact C73_tbx_after_offset_refuted_proof. Qed.
Print Assumptions C73_tbx_after_offset_refuted.

Example C73_tbx_after_offset_example : (1 <= length [4; 8])%nat /\ [ex 3 4 1; ex 3 8 2] <> [] /\ Z.of_nat (length [ex 3 4 1; ex 3 8 2]) < 6.
Proof. exact C73_tbx_after_offset_example_proof. Qed.

(** C73: a gap in data with another step (7840 for data converted from LWA-SV) is not filled: RuntimeError. *)
Theorem C73_tbx_other_step_refuted : exists C, tbx_cfg [4] 2 true = Ok C /\
  let f k := CFrame (mkTbx 4 (500 + k * 7840) [Fin 1] true) in
  let file := map f [0; 1; 3; 4; 5; 6; 7; 8] in
  recording x_tt x_data file 500 7840 [0; 1; 3; 4; 5; 6; 7; 8]%nat 1 /\
  tbx_read tbx_ops C x_data (tbx_place [4]) 1 7840 false tbx_zero_at 50 8 None (open_cf C 0 file) = Raise RuntimeError.
Proof. exact C73_tbx_other_step_refuted_proof. Qed.
Print Assumptions C73_tbx_other_step_refuted.

(** C73: with frames missing, read() without a duration does not load the entire file, and a file with less than one
    spectrum in it gives empty results for ever, never EOFError. *)
Theorem C73_tbx_whole_file_refuted : exists C, tbx_cfg [4; 8] 2 true = Ok C /\
  calls (tbx_read tbx_ops C x_data (tbx_place [4; 8]) 2 8192 false tbx_zero_at 50 4) [None; None; None] (open_cf C 0 [ex 0 4 1; ex 1 8 2; ex 2 4 3; ex 2 8 4])
    = [Ok (2%nat, Some 500, [[[Fin 1]; [Fin 0]]; [[Fin 0]; [Fin 2]]]); Ok (1%nat, Some (500 + 2 * 8192), [[[Fin 3]]; [[Fin 4]]]); Raise EOFError] /\
  tbx_read tbx_ops C x_data (tbx_place [4; 8]) 2 8192 false tbx_zero_at 50 1 None (open_cf C 0 [ex 0 4 1])
    = Ok (mkCF [ex 0 4 1] 0 (init C 0) (Some 0), (0%nat, None, [[]; []])).
Proof. exact C73_tbx_whole_file_refuted_proof. Qed.
Print Assumptions C73_tbx_whole_file_refuted.
