(** Property theorems (generated from P_UvfitsT.v by tools/gen_theorems.py). *)
From Coq Require Import String.
From Coq Require Import List ZArith QArith Qabs Qround Sorted Permutation Bool Lia Lqa.
From Verif Require Import M_Uvfits S_Idi S_Uvfits P_Base P_Str P_Idi P_Idi2 P_Idi3 P_Idi4 P_Idi5 P_IdiT P_Uvfits P_Uvfits2 P_Uvfits3 P_UvfitsT.
Import ListNotations.
Open Scope Z_scope.

(** Reading a UVFITS file that was written returns every integration: its date as
    the file keeps it, its phase center, its integration time, and for every
    baseline its coordinates and the visibilities of all channels of all
    polarizations (in single precision), whatever the order of the calls of
    add_data_set.  The weights are all one.  Baselines of a stand with itself
    are left out unless they are asked for. *)
Theorem C113_read_back : forall V W U P X (E : sky V W U P) par pols codes names width nchan freq (antennas : list (Z * X)) l calls,
  Forall2 (fun c nm => code_name c = Some nm) codes names ->
  writable_uv E par pols codes width nchan freq antennas l calls ->
  exists f, write_uvfits E par pols [freq] antennas calls = Ok f /\
    forall j i auto, nth_error l j = Some i ->
    exists d es, get_data_set_uv E (open_uv f) f (Z.of_nat j + 1) auto = Ok d /\
      s_jd d = kept_date E par l i /\ Forall2 Qeq (s_freq d) freq /\
      s_center d = (firstn 16 (fst (center_of E i)), snd (center_of E i)) /\
      s_int d = map (fun _ => par 0%Q (i_length i)) (i_rows i) /\
      Permutation es (entries_of E (length codes) (Z.of_nat nchan) auto (unweighted i)) /\ says (map fst antennas) names d es.
Proof. exact C113_read_back_proof. Qed.
Print Assumptions C113_read_back.

(** If a stored number is never more than eps away from what was to be stored,
    the date of an integration in a file is never more than two eps away from its
    time, and integrations more than four eps apart keep their order. *)
Theorem C113_dates : forall V W U P (E : sky V W U P) par eps (l : list (@integration V W P)),
  (forall z x, Qabs (par z x - (z + x)) <= eps)%Q ->
  (forall i, Qabs (kept_date E par l i - utcjd E (i_time i)) <= 2 * eps)%Q /\
  (StronglySorted (fun i j => i_time i < i_time j /\ utcjd E (i_time i) + 4 * eps < utcjd E (i_time j))%Q l -> dates_kept E par l).
Proof. exact C113_dates_proof. Qed.
Print Assumptions C113_dates.

(** Opening a file that was written gives its stands and antennas in the order of
    set_geometry, its polarizations, its frequencies and the dates of its
    integrations. *)
Theorem C114_open : forall V W U P X (E : sky V W U P) par pols codes width nchan freq (antennas : list (Z * X)) l calls,
  writable_uv E par pols codes width nchan freq antennas l calls ->
  exists f, write_uvfits E par pols [freq] antennas calls = Ok f /\
    r_stands (open_uv f) = map fst antennas /\ r_ants (open_uv f) = antennas /\ r_pols (open_uv f) = codes /\
    Forall2 Qeq (r_freq (open_uv f)) freq /\ r_times (open_uv f) = map (kept_date E par l) l.
Proof. exact C114_open_proof. Qed.
Print Assumptions C114_open.

(** The groups of a file: one for each baseline of each integration, sorted by
    time and then by the numbers of the two stands.  If all stands are below 256
    they are sorted by their baseline numbers too. *)
Theorem C115_group_order : forall V W U P X (E : sky V W U P) par pols codes width nchan freq (antennas : list (Z * X)) l calls,
  writable_uv E par pols codes width nchan freq antennas l calls ->
  exists f rows, write_uvfits E par pols [freq] antennas calls = Ok f /\ uf_gr f = groups_of rows /\ time_stands_order rows /\
    length rows = fold_right Nat.add O (map (fun i => length (i_rows i)) l) /\
    (Forall (fun s => s < 256) (map fst antennas) -> tb_order rows).
Proof. exact C115_group_order_proof. Qed.
Print Assumptions C115_group_order.

(** Three stands, one band, and two integrations, written in reverse order *)
Example C113_read_back_example :
  Forall2 (fun c nm => code_name c = Some nm) [-5; -6] ["XX"; "YY"]%string /\
  writable_uv sky0 grid20 [Named "yy"; Named "XX"; Code (-6)] [-5; -6] 2 2 [40; 42]%Q ex_ants uv_l (rev (calls0 [-5; -6] uv_l)).
Proof. exact C113_read_back_example_proof. Qed.

(** The same case: both dates are off by less than a millionth of a day *)
Example C113_dates_example : (forall z x, Qabs (grid20 z x - (z + x)) <= 1 # 1048576)%Q /\
  StronglySorted (fun i j => i_time i < i_time j /\ utcjd sky0 (i_time i) + 4 * (1 # 1048576) < utcjd sky0 (i_time j))%Q uv_l /\
  map (fun i => Qeq_bool (kept_date sky0 grid20 uv_l i) (utcjd sky0 (i_time i))) uv_l = [false; false].
Proof. exact C113_dates_example_proof. Qed.

(** The same case for what the reader has when it is open, and the five groups
    of the file, in order *)
Example C114_open_example : exists f,
  writable_uv sky0 grid20 [Named "yy"; Named "XX"; Code (-6)] [-5; -6] 2 2 [40; 42]%Q ex_ants uv_l (rev (calls0 [-5; -6] uv_l)) /\
  write_uvfits sky0 grid20 [Named "yy"; Named "XX"; Code (-6)] [[40; 42]]%Q ex_ants (rev (calls0 [-5; -6] uv_l)) = Ok f /\
  r_stands (open_uv f) = [7; 3; 300] /\ r_ants (open_uv f) = ex_ants /\ r_pols (open_uv f) = [-5; -6] /\ length (r_times (open_uv f)) = 2%nat.
Proof. exact C114_open_example_proof. Qed.

Example C115_group_order_example : exists f,
  writable_uv sky0 grid20 [Named "yy"; Named "XX"; Code (-6)] [-5; -6] 2 2 [40; 42]%Q ex_ants uv_l (rev (calls0 [-5; -6] uv_l)) /\
  write_uvfits sky0 grid20 [Named "yy"; Named "XX"; Code (-6)] [[40; 42]]%Q ex_ants (rev (calls0 [-5; -6] uv_l)) = Ok f /\
  gr_bl (uf_gr f) = [256 * 3 + 3; 256 * 7 + 3; 65536 + 2048 * 7 + 300; 256 * 3 + 7; 65536 + 2048 * 300 + 7].
Proof. exact C115_group_order_example_proof. Qed.

Theorem C115_baseline_order_refuted : exists f,
  writable_uv sky0 exact [Named "XX"; Named "YY"] [-5; -6] 2 2 [40; 42]%Q ex_ants mixed_l (calls0 [-5; -6] mixed_l) /\
  write_uvfits sky0 exact [Named "XX"; Named "YY"] [[40; 42]]%Q ex_ants (calls0 [-5; -6] mixed_l) = Ok f /\
  forall rows, uf_gr f = groups_of rows -> ~ tb_order rows.
Proof. exact C115_baseline_order_refuted_proof. Qed.
Print Assumptions C115_baseline_order_refuted.

Theorem C113_weights_refuted : exists f d i,
  nth_error one_l 0 = Some i /\ write_uvfits sky0 exact [Named "XX"] [[40; 42]]%Q ex_ants (calls0 [-5] one_l) = Ok f /\ get_data_set_uv sky0 (open_uv f) f 1 false = Ok d /\
  map snd (s_pols d) = [[[1; 1]]] /\ map (fun e => map snd (snd e)) (entries_of sky0 1 2 false i) = [[[11; 11]]].
Proof. exact C113_weights_refuted_proof. Qed.
Print Assumptions C113_weights_refuted.

Theorem C113_close_integrations_refuted : exists f d,
  in_order sky0 close_l /\ write_uvfits sky0 grid20 [Named "XX"] [[40; 42]]%Q ex_ants (calls0 [-5] close_l) = Ok f /\
  length (r_times (open_uv f)) = 1%nat /\ get_data_set_uv sky0 (open_uv f) f 1 false = Ok d /\ s_bl d = [(0, 1); (0, 1)].
Proof. exact C113_close_integrations_refuted_proof. Qed.
Print Assumptions C113_close_integrations_refuted.

(** Stands from 1000 on lose their thousands: the stands 1 and 1001 are read as 1 and 1. *)
Theorem C114_stands_refuted : exists f,
  write_uvfits sky0 exact [Named "XX"; Named "YY"] [[40; 42]]%Q [(1, 100); (1001, 101)]
    (calls0 [-5; -6] [at_ 10 Zenith [((1, 1001), [cell0 11; cell0 12])]]) = Ok f /\ r_stands (open_uv f) = [1; 1].
Proof. exact C114_stands_refuted_proof. Qed.
Print Assumptions C114_stands_refuted.

(** Two frequency setups can be set but not be written. *)
Theorem C114_two_bands_refuted : snd (set_up (P := Z) (X := Z) [Named "XX"] [[40; 42]; [60; 62]]%Q ex_ants (calls0 [-5] one_l)) = Ok tt /\
  write_uvfits sky0 exact [Named "XX"] [[40; 42]; [60; 62]]%Q ex_ants (calls0 [-5] one_l) = Raise RuntimeError.
Proof. exact C114_two_bands_refuted_proof. Qed.
Print Assumptions C114_two_bands_refuted.

(** write() refuses to write a file without polarizations, frequencies, antennas
    or data, or with more than one frequency setup, and changes nothing then. *)
Theorem C116_refuses : forall V W U P X (E : sky V W U P) par (w : writer V W P X),
  w_nstokes w = 0 \/ (length (w_freq w) <> 1)%nat \/ w_array w = [] \/ w_data w = [] ->
  write_uv E par w = (w, Raise RuntimeError).
Proof. exact C116_refuses_proof. Qed.
Print Assumptions C116_refuses.

(** Whatever happens in write(), the settings stay.  If it succeeds the data are
    gone from the writer; if it fails every data set is still there. *)
Theorem C116_data : forall V W U P X (E : sky V W U P) par (w : writer V W P X) w' r, write_uv E par w = (w', r) ->
  w' = with_data w (w_data w') /\ match r with Ok _ => w_data w' = [] | Raise _ => Permutation (w_data w') (w_data w) end.
Proof. exact C116_data_proof. Qed.
Print Assumptions C116_data.

(** A second write() finds no data.  Data of a polarization that was not set make
    write() fail, and they are still there then. *)
Example C116_data_example : exists f, let w := fst (set_up [Named "XX"] [[40; 42]]%Q ex_ants (calls0 [-5] one_l)) in
  let w2 := fst (set_up [Named "XX"] [[40; 42]]%Q ex_ants (calls0 [-6] one_l)) in
  length (w_data w) = 1%nat /\ snd (write_uv sky0 exact w) = Ok f /\ snd (write_uv sky0 exact (fst (write_uv sky0 exact w))) = Raise RuntimeError /\
  snd (write_uv sky0 exact w2) = Raise NameError /\ length (w_data (fst (write_uv sky0 exact w2))) = 1%nat.
Proof. exact C116_data_example_proof. Qed.
