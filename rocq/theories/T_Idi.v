(** Property theorems (generated from P_IdiT.v by tools/gen_theorems.py). *)
From Coq Require Import String.
From Coq Require Import List ZArith QArith Qabs Qround Sorted Permutation Bool Lia Lqa.
From Verif Require Import M_Idi S_Idi P_Base P_Str P_Idi P_Idi2 P_Idi3 P_Idi4 P_Idi5 P_IdiT.
Import ListNotations.
Open Scope Z_scope.

(** Reading a file that was written returns every integration: its date, its
    phase center, its integration time, and for every baseline its coordinates
    and the visibilities and weights of all channels of all polarizations (in
    single precision), whatever the order of the calls of add_data_set.
    Baselines of a stand with itself are left out unless they are asked for. *)
Theorem C68_read_back : forall V W U P X (E : sky V W U P) k mode pols codes names width nchan bands (antennas : list (Z * X)) l calls,
  (forall v, conj E (v32 E (conj E v)) = v32 E v) ->
  Forall2 (fun c nm => code_name c = Some nm) codes names ->
  writable E k mode pols codes width nchan bands antennas l calls ->
  exists f, write_file E k mode pols bands antennas calls = Ok f /\
    forall j i auto, nth_error l j = Some i ->
    exists d es, get_data_set E (open_idi f) f (Z.of_nat j + 1) auto = Ok d /\
      (s_jd d == utcjd E (i_time i))%Q /\ s_freq d = r_freq (open_idi f) /\
      s_center d = (firstn 16 (fst (center_of E i)), snd (center_of E i)) /\
      s_int d = map (fun _ => q32 E (i_length i)) (i_rows i) /\
      Permutation es (entries_of E (length codes) (Z.of_nat (nchan * length bands)) auto i) /\ says (map fst antennas) names d es.
Proof. exact C68_read_back_proof. Qed.
Print Assumptions C68_read_back.

(** Opening a file that was written gives its stands and antennas in the order of
    set_geometry, its polarizations, its frequencies (the channel width being a
    number of single precision) and the dates of its integrations. *)
Theorem C69_open : forall V W U P X (E : sky V W U P) k mode pols codes width nchan bands (antennas : list (Z * X)) l calls,
  (forall w, w == width -> q32 E w == width)%Q ->
  writable E k mode pols codes width nchan bands antennas l calls ->
  exists f, write_file E k mode pols bands antennas calls = Ok f /\
    r_stands (open_idi f) = map fst antennas /\ r_ants (open_idi f) = antennas /\ r_pols (open_idi f) = codes /\
    Forall2 Qeq (r_freq (open_idi f)) (concat bands) /\ Forall2 Qeq (r_times (open_idi f)) (map (fun i => utcjd E (i_time i)) l).
Proof. exact C69_open_proof. Qed.
Print Assumptions C69_open.

(** The rows of the UV_DATA table are sorted by time and baseline, as the file says. *)
Theorem C70_row_order : forall V W U P X (E : sky V W U P) k mode pols codes width nchan bands (antennas : list (Z * X)) l calls,
  writable E k mode pols codes width nchan bands antennas l calls ->
  exists f rows, write_file E k mode pols bands antennas calls = Ok f /\ f_uv f = table_of rows /\ time_baseline_order rows /\
    length rows = fold_right Nat.add O (map (fun i => length (i_rows i)) l).
Proof. exact C70_row_order_proof. Qed.
Print Assumptions C70_row_order.

(** Three stands, one of them too large for the baseline numbers of a file, two
    bands, and two integrations, written in reverse order *)
Example C68_read_back_example : (forall v, conj sky0 (v32 sky0 (conj sky0 v)) = v32 sky0 v) /\
  Forall2 (fun c nm => code_name c = Some nm) [-5; -6] ["XX"; "YY"]%string /\
  writable sky0 Idi "ZA" [Named "yy"; Named "XX"; Code (-6)] [-5; -6] 2 2 ex_bands ex_ants ex_l4 (rev (calls0 [-5; -6] ex_l4)).
Proof. exact C68_read_back_example_proof. Qed.

(** The same case for what the reader has when it is open *)
Example C69_open_example : (forall w, w == 2 -> q32 sky0 w == 2)%Q /\
  writable sky0 Idi "ZA" [Named "yy"; Named "XX"; Code (-6)] [-5; -6] 2 2 ex_bands ex_ants ex_l4 (rev (calls0 [-5; -6] ex_l4)).
Proof. exact C69_open_example_proof. Qed.

(** The same case: the five baselines of the file, in order.  The stands 7, 3 and
    300 are the antennas 1, 2 and 3 of the file. *)
Example C70_row_order_example :
  writable sky0 Idi "ZA" [Named "yy"; Named "XX"; Code (-6)] [-5; -6] 2 2 ex_bands ex_ants ex_l4 (rev (calls0 [-5; -6] ex_l4)) /\
  exists f, write_file sky0 Idi "ZA" [Named "yy"; Named "XX"; Code (-6)] ex_bands ex_ants (rev (calls0 [-5; -6] ex_l4)) = Ok f /\
    u_bl (f_uv f) = [256 + 2; 256 + 3; 512 + 2; 512 + 1; 768 + 1].
Proof. exact C70_row_order_example_proof. Qed.

Theorem C68_baseline_order_refuted : exists f d i,
  Forall (complete (map fst ants3) 1 2) swapped_l /\ one_position_per_name sky0 swapped_l /\ in_order sky0 swapped_l /\
  write_file sky0 Idi "ZA" [Named "XX"] band2 ants3 (calls0 [-5] swapped_l) = Ok f /\
  nth_error swapped_l 1 = Some i /\ get_data_set sky0 (open_idi f) f 2 false = Ok d /\
  ~ exists es, Permutation es (entries_of sky0 1 2 false i) /\ says (map fst ants3) ["XX"%string] d es.
Proof. exact C68_baseline_order_refuted_proof. Qed.
Print Assumptions C68_baseline_order_refuted.

Theorem C68_same_name_refuted : exists f d i,
  Forall (complete (map fst ants3) 1 2) named_l /\ same_layout named_l /\ in_order sky0 named_l /\
  write_file sky0 Idi "ZA" [Named "XX"] band2 ants3 (calls0 [-5] named_l) = Ok f /\
  nth_error named_l 1 = Some i /\ get_data_set sky0 (open_idi f) f 2 false = Ok d /\
  snd (center_of sky0 i) = 2 /\ snd (s_center d) = 1.
Proof. exact C68_same_name_refuted_proof. Qed.
Print Assumptions C68_same_name_refuted.

Theorem C68_missing_last_refuted : exists f calls,
  Permutation (calls0 [-5; -6] short_l) (call_for (at_ 10 Zenith [((1, 2), [cell0 11; cell0 12])]) (-6) 1 :: calls) /\
  write_file sky0 Idi "ZA" [Named "XX"; Named "YY"] band2 ants3 calls = Ok f /\
  length (u_bl (f_uv f)) = 2%nat /\ u_flux (f_uv f) = [[(21, -1); (22, -1); (21, -2); (22, -2)]] /\
  map (fun q => Qcompare q (utcjd sky0 10)) (jds (f_uv f)) = [Eq; Gt].
Proof. exact C68_missing_last_refuted_proof. Qed.
Print Assumptions C68_missing_last_refuted.

(** An integration without its first polarization is stored with that of the
    integration before it: the file has two rows of visibilities for one baseline. *)
Theorem C68_missing_first_refuted : exists f calls,
  Permutation (calls0 [-5; -6] short_l) (call_for (at_ 11 Zenith [((1, 2), [cell0 21; cell0 22])]) (-5) 0 :: calls) /\
  write_file sky0 Idi "ZA" [Named "XX"; Named "YY"] band2 ants3 calls = Ok f /\
  length (u_bl (f_uv f)) = 1%nat /\ u_flux (f_uv f) = [[(11, -1); (12, -1); (11, -2); (12, -2)]; [(11, -1); (22, -1); (11, -2); (22, -2)]].
Proof. exact C68_missing_first_refuted_proof. Qed.
Print Assumptions C68_missing_first_refuted.

(** Polarizations that do not follow each other: XX and XY are read as XX and YY. *)
Theorem C69_polarizations_refuted : exists f,
  write_file sky0 Idi "ZA" [Named "XX"; Named "XY"] band2 ants3 (calls0 [-5; -7] short_l) = Ok f /\ r_pols (open_idi f) = [-5; -6].
Proof. exact C69_polarizations_refuted_proof. Qed.
Print Assumptions C69_polarizations_refuted.

(** Frequencies in descending order are read in ascending order. *)
Theorem C69_frequencies_refuted : exists f,
  write_file sky0 Idi "ZA" [Named "XX"; Named "YY"] [[42; 40]]%Q ants3 (calls0 [-5; -6] short_l) = Ok f /\ map Qred (r_freq (open_idi f)) = [42; 44]%Q.
Proof. exact C69_frequencies_refuted_proof. Qed.
Print Assumptions C69_frequencies_refuted.

(** A single channel cannot be written. *)
Theorem C69_one_channel_refuted : write_file sky0 Idi "ZA" [Named "XX"; Named "YY"] [[42]]%Q ants3 (calls0 [-5; -6] short_l) = Raise IndexError.
Proof. exact C69_one_channel_refuted_proof. Qed.
Print Assumptions C69_one_channel_refuted.

(** Stands from 1000 on lose their thousands: the stands 1 and 1001 are read as 1 and 1. *)
Theorem C69_stands_refuted : exists f,
  write_file sky0 ExtendedIdi "ZA" [Named "XX"; Named "YY"] band2 [(1, 100); (1001, 101)]
    (calls0 [-5; -6] [at_ 10 Zenith [((1, 1001), [cell0 11; cell0 12])]]) = Ok f /\ r_stands (open_idi f) = [1; 1].
Proof. exact C69_stands_refuted_proof. Qed.
Print Assumptions C69_stands_refuted.

(** write() refuses to write a file without polarizations, frequencies, antennas
    or data, and changes nothing then. *)
Theorem C71_incomplete : forall V W U P X (E : sky V W U P) (w : writer V W P X),
  w_nstokes w = 0 \/ w_freq w = [] \/ w_array w = [] \/ w_data w = [] -> write E w = (w, Raise RuntimeError).
Proof. exact C71_incomplete_proof. Qed.
Print Assumptions C71_incomplete.

(** A file is written once: the data are gone after that. *)
Theorem C71_written_once : forall V W U P X (E : sky V W U P) (w : writer V W P X) w' f,
  write E w = (w', Ok f) -> w_data w' = [] /\ write E w' = (w', Raise RuntimeError).
Proof. exact C71_written_once_proof. Qed.
Print Assumptions C71_written_once.

(** Polarizations and names that are not known are refused; a name that is not
    known changes nothing in add_data_set, and too many antennas change nothing in set_geometry. *)
Theorem C71_unknown_name : forall V W P X (w : writer V W P X) t int bl vis wgt n src,
  (forall c, code_name c <> Some (upper n)) ->
  add_data_set w t int bl vis wgt (Named n) src = (w, Raise KeyError) /\ snd (set_stokes w [Named n]) = Raise KeyError.
Proof. exact C71_unknown_name_proof. Qed.
Print Assumptions C71_unknown_name.

Theorem C71_too_many : forall V W P X (w : writer V W P X) antennas,
  max_ants (w_kind w) < zlen antennas -> set_geometry w antennas = (w, Raise RuntimeError).
Proof. exact C71_too_many_proof. Qed.
Print Assumptions C71_too_many.

(** The names that were read before an unknown one are kept: after a failed call
    for XX and an unknown name a file of YY is one of XX and YY. *)
Theorem C71_failed_call_refuted :
  let w := fst (set_stokes (new_writer Idi : writer Z Z Z Z) [Named "XX"; Named "XZ"]) in
  snd (set_stokes (new_writer Idi : writer Z Z Z Z) [Named "XX"; Named "XZ"]) = Raise KeyError /\ w_stokes (fst (set_stokes w [Named "YY"])) = [-5; -6].
Proof. exact C71_failed_call_refuted_proof. Qed.
Print Assumptions C71_failed_call_refuted.

(** An unknown name, an incomplete writer and a hundred antennas for AIPS *)
Example C71_example : (forall c, code_name c <> Some (upper "XZ")) /\
  w_data (with_freq (new_writer Aips : writer Z Z Z Z) 4 10 2 [mkB 0 2 6]) = [] /\ max_ants Aips < zlen (map (fun s => (s, 0)) (range 1 101)).
Proof. exact C71_example_proof. Qed.
