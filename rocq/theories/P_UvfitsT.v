From Coq Require Import String.
From Coq Require Import List ZArith QArith Qabs Qround Sorted Permutation Bool Lia Lqa.
From Verif Require Import M_Uvfits S_Idi S_Uvfits P_Base P_Str P_Idi P_Idi2 P_Idi3 P_Idi4 P_Idi5 P_IdiT P_Uvfits P_Uvfits2 P_Uvfits3.
Import ListNotations.
Open Scope Z_scope.

(** Reading a UVFITS file that was written returns every integration: its date as
    the file keeps it, its phase center, its integration time, and for every
    baseline its coordinates and the visibilities of all channels of all
    polarizations (in single precision), whatever the order of the calls of
    add_data_set.  The weights are all one.  Baselines of a stand with itself
    are left out unless they are asked for. *)
Lemma C113_read_back_proof : forall V W U P X (E : sky V W U P) par pols codes names width nchan freq (antennas : list (Z * X)) l calls,
  Forall2 (fun c nm => code_name c = Some nm) codes names ->
  writable_uv E par pols codes width nchan freq antennas l calls ->
  exists f, write_uvfits E par pols [freq] antennas calls = Ok f /\
    forall j i auto, nth_error l j = Some i ->
    exists d es, get_data_set_uv E (open_uv f) f (Z.of_nat j + 1) auto = Ok d /\
      s_jd d = kept_date E par l i /\ Forall2 Qeq (s_freq d) freq /\
      s_center d = (firstn 16 (fst (center_of E i)), snd (center_of E i)) /\
      s_int d = map (fun _ => par 0%Q (i_length i)) (i_rows i) /\
      Permutation es (entries_of E (length codes) (Z.of_nat nchan) auto (unweighted i)) /\ says (map fst antennas) names d es.
Proof.
  intros V W U P X E par pols codes names width nchan freq antennas l calls Hn (H1 & H2 & H3 & H4 & H5 & H6 & H7 & H8 & H9 & H10).
  destruct (uwrite_ok E par pols codes names width nchan freq antennas l calls H1 H2 Hn H3 H4 H5 H6 H7 H8 H9 H10) as (wd & Hw & Hd).
  eexists. split; [exact Hw|]. intros j i auto Hj.
  destruct (uget_ok E par codes names nchan freq antennas l H1 Hn H4 H6 H8 H9 wd j i auto Hj) as (d & es & G1 & G2 & G3 & G4 & G5 & G6 & G7). exists d, es.
  split; [exact G1|]. split; [exact G2|]. split; [rewrite G3; eapply ufreq_ok; eauto|]. split; [exact G4|]. split; [exact G5|]. split; [exact G6|exact G7].
Qed.

(** If a stored number is never more than eps away from what was to be stored,
    the date of an integration in a file is never more than two eps away from its
    time, and integrations more than four eps apart keep their order. *)
Lemma C113_dates_proof : forall V W U P (E : sky V W U P) par eps (l : list (@integration V W P)),
  (forall z x, Qabs (par z x - (z + x)) <= eps)%Q ->
  (forall i, Qabs (kept_date E par l i - utcjd E (i_time i)) <= 2 * eps)%Q /\
  (StronglySorted (fun i j => i_time i < i_time j /\ utcjd E (i_time i) + 4 * eps < utcjd E (i_time j))%Q l -> dates_kept E par l).
Proof.
  intros V W U P E par eps l H. split; [intro i; apply kept_near; auto|apply kept_order; auto].
Qed.

(** Opening a file that was written gives its stands and antennas in the order of
    set_geometry, its polarizations, its frequencies and the dates of its
    integrations. *)
Lemma C114_open_proof : forall V W U P X (E : sky V W U P) par pols codes width nchan freq (antennas : list (Z * X)) l calls,
  writable_uv E par pols codes width nchan freq antennas l calls ->
  exists f, write_uvfits E par pols [freq] antennas calls = Ok f /\
    r_stands (open_uv f) = map fst antennas /\ r_ants (open_uv f) = antennas /\ r_pols (open_uv f) = codes /\
    Forall2 Qeq (r_freq (open_uv f)) freq /\ r_times (open_uv f) = map (kept_date E par l) l.
Proof.
  intros V W U P X E par pols codes width nchan freq antennas l calls (H1 & H2 & H3 & H4 & H5 & H6 & H7 & H8 & H9 & H10).
  destruct (axis_named codes H1) as (names & Hn).
  destruct (uwrite_ok E par pols codes names width nchan freq antennas l calls H1 H2 Hn H3 H4 H5 H6 H7 H8 H9 H10) as (wd & Hw & Hd).
  eexists. split; [exact Hw|].
  split; [eapply ureader_ok; eauto|]. split; [eapply ureader_ok; eauto|]. split; [eapply upols_ok; eauto|]. split; [eapply ufreq_ok; eauto|]. eapply utimes_ok; eauto.
Qed.

(** The groups of a file: one for each baseline of each integration, sorted by
    time and then by the numbers of the two stands.  If all stands are below 256
    they are sorted by their baseline numbers too. *)
Lemma C115_group_order_proof : forall V W U P X (E : sky V W U P) par pols codes width nchan freq (antennas : list (Z * X)) l calls,
  writable_uv E par pols codes width nchan freq antennas l calls ->
  exists f rows, write_uvfits E par pols [freq] antennas calls = Ok f /\ uf_gr f = groups_of rows /\ time_stands_order rows /\
    length rows = fold_right Nat.add O (map (fun i => length (i_rows i)) l) /\
    (Forall (fun s => s < 256) (map fst antennas) -> tb_order rows).
Proof.
  intros V W U P X E par pols codes width nchan freq antennas l calls (H1 & H2 & H3 & H4 & H5 & H6 & H7 & H8 & H9 & H10).
  destruct (axis_named codes H1) as (names & Hn).
  destruct (uwrite_ok E par pols codes names width nchan freq antennas l calls H1 H2 Hn H3 H4 H5 H6 H7 H8 H9 H10) as (wd & Hw & Hd).
  eexists. eexists. split; [exact Hw|]. split; [reflexivity|].
  edestruct @uorder as (O1 & O2 & O3); [| | |split; [exact O1|split; [exact O3|exact O2]]]; eauto.
Qed.

(** ** Examples *)

(** Numbers with 20 bits after the point *)
Definition grid20 (z x : Q) : Q := (z + inject_Z (Qfloor (x * 1048576)) / 1048576)%Q.
Definition uv_l : list (@integration (Z * Z) Z Z) :=
  [at_ (31 # 3) Zenith [((7, 3), [cell0 11; cell0 12]); ((7, 300), [cell0 13; cell0 14]); ((3, 3), [cell0 15; cell0 16])];
   at_ (37 # 3) (Body [83; 117; 110] 5) [((300, 7), [cell0 21; cell0 22]); ((3, 7), [cell0 23; cell0 24])]].
Lemma grid20_near : forall z x, (Qabs (grid20 z x - (z + x)) <= 1 # 1048576)%Q.
Proof.
  intros z x. unfold grid20. pose proof (Qfloor_le (x * 1048576)) as L. pose proof (Qlt_floor (x * 1048576)) as R. rewrite inject_Z_plus in R.
  set (y := inject_Z (Qfloor (x * 1048576))) in *. change (inject_Z 1) with 1%Q in R. apply Qabs_Qle_condition.
  assert (y / 1048576 == y * (1 # 1048576))%Q as -> by reflexivity. lra.
Qed.

(** Three stands, one band, and two integrations, written in reverse order *)
Lemma C113_read_back_example_proof :
  Forall2 (fun c nm => code_name c = Some nm) [-5; -6] ["XX"; "YY"]%string /\
  writable_uv sky0 grid20 [Named "yy"; Named "XX"; Code (-6)] [-5; -6] 2 2 [40; 42]%Q ex_ants uv_l (rev (calls0 [-5; -6] uv_l)).
Proof.
  split; [repeat constructor|].
  split.
  { split; [discriminate|]. split; [right; repeat constructor; lia|]. intros [|[|[|k]]] a b Ha Hb; simpl in *; try discriminate. injection Ha as <-. injection Hb as <-. reflexivity. }
  split. { split; [intros p [<-|[<-|[<-|[]]]]|intros c [<-|[<-|[]]]].
    - exists (-6). simpl. auto.
    - exists (-5). simpl. auto.
    - exists (-6). simpl. auto.
    - exists (Named "XX"). simpl. auto.
    - exists (Named "yy"). simpl. auto. }
  split. { split; [discriminate|]. split; [lia|]. split; [reflexivity|]. repeat constructor; intros [|[|k]] H; try lia; reflexivity. }
  split. { split; [discriminate|]. split; [simpl; repeat constructor; simpl; intuition lia|each ltac:(cbn; lia)]. }
  split; [discriminate|]. split.
  { each ltac:(is_complete). }
  split. { intros i j [<-|[<-|[]]] [<-|[<-|[]]]; simpl; auto; discriminate. }
  split. { split; [intros i j [<-|[<-|[]]] [<-|[<-|[]]]; simpl; auto; discriminate|]. intros i [<-|[<-|[]]]; discriminate. }
  split; [|apply ex_calls_rev].
  apply (kept_order sky0 grid20 (1 # 1048576) grid20_near). repeat constructor; simpl; lra.
Qed.
(** The same case: both dates are off by less than a millionth of a day *)
Lemma C113_dates_example_proof : (forall z x, Qabs (grid20 z x - (z + x)) <= 1 # 1048576)%Q /\
  StronglySorted (fun i j => i_time i < i_time j /\ utcjd sky0 (i_time i) + 4 * (1 # 1048576) < utcjd sky0 (i_time j))%Q uv_l /\
  map (fun i => Qeq_bool (kept_date sky0 grid20 uv_l i) (utcjd sky0 (i_time i))) uv_l = [false; false].
Proof. split; [apply grid20_near|]. split; [repeat constructor; simpl; lra|]. vm_compute. reflexivity. Qed.
(** The same case for what the reader has when it is open, and the five groups
    of the file, in order *)
Lemma C114_open_example_proof : exists f,
  writable_uv sky0 grid20 [Named "yy"; Named "XX"; Code (-6)] [-5; -6] 2 2 [40; 42]%Q ex_ants uv_l (rev (calls0 [-5; -6] uv_l)) /\
  write_uvfits sky0 grid20 [Named "yy"; Named "XX"; Code (-6)] [[40; 42]]%Q ex_ants (rev (calls0 [-5; -6] uv_l)) = Ok f /\
  r_stands (open_uv f) = [7; 3; 300] /\ r_ants (open_uv f) = ex_ants /\ r_pols (open_uv f) = [-5; -6] /\ length (r_times (open_uv f)) = 2%nat.
Proof.
  eexists. split; [apply C113_read_back_example_proof|]. split; [vm_compute; reflexivity|]. split; [vm_compute; reflexivity|]. split; [vm_compute; reflexivity|]. split; vm_compute; reflexivity.
Qed.
Lemma C115_group_order_example_proof : exists f,
  writable_uv sky0 grid20 [Named "yy"; Named "XX"; Code (-6)] [-5; -6] 2 2 [40; 42]%Q ex_ants uv_l (rev (calls0 [-5; -6] uv_l)) /\
  write_uvfits sky0 grid20 [Named "yy"; Named "XX"; Code (-6)] [[40; 42]]%Q ex_ants (rev (calls0 [-5; -6] uv_l)) = Ok f /\
  gr_bl (uf_gr f) = [256 * 3 + 3; 256 * 7 + 3; 65536 + 2048 * 7 + 300; 256 * 3 + 7; 65536 + 2048 * 300 + 7].
Proof. eexists. split; [apply C113_read_back_example_proof|]. split; vm_compute; reflexivity. Qed.

(** ** What goes wrong *)
Definition exact (z x : Q) : Q := (z + x)%Q.

(** The header of a file says that its groups are sorted by time and baseline.  If
    some stands are below 256 and others are not, they are not: the first of these
    two groups of one integration has the larger baseline number. *)
Definition mixed_l : list (@integration (Z * Z) Z Z) := [at_ 10 Zenith [((7, 3), [cell0 11; cell0 12]); ((3, 300), [cell0 13; cell0 14])]].
Lemma C115_baseline_order_refuted_proof : exists f,
  writable_uv sky0 exact [Named "XX"; Named "YY"] [-5; -6] 2 2 [40; 42]%Q ex_ants mixed_l (calls0 [-5; -6] mixed_l) /\
  write_uvfits sky0 exact [Named "XX"; Named "YY"] [[40; 42]]%Q ex_ants (calls0 [-5; -6] mixed_l) = Ok f /\
  forall rows, uf_gr f = groups_of rows -> ~ tb_order rows.
Proof.
  eexists. split; [|split; [vm_compute; reflexivity|]].
  - split.
    { split; [discriminate|]. split; [right; repeat constructor; lia|]. intros [|[|[|k]]] a b Ha Hb; simpl in *; try discriminate. injection Ha as <-. injection Hb as <-. reflexivity. }
    split. { split; [intros p [<-|[<-|[]]]|intros c [<-|[<-|[]]]].
      - exists (-5). simpl. auto.
      - exists (-6). simpl. auto.
      - exists (Named "XX"). simpl. auto.
      - exists (Named "YY"). simpl. auto. }
    split. { split; [discriminate|]. split; [lia|]. split; [reflexivity|]. repeat constructor; intros [|[|k]] H; try lia; reflexivity. }
    split. { split; [discriminate|]. split; [simpl; repeat constructor; simpl; intuition lia|each ltac:(cbn; lia)]. }
    split; [discriminate|]. split; [each ltac:(is_complete)|].
    split. { intros i j [<-|[]] [<-|[]]; simpl; auto. }
    split. { split; [intros i j [<-|[]] [<-|[]]; simpl; auto|]. intros i [<-|[]]; discriminate. }
    split; [|apply ex_calls_of]. repeat constructor.
  - intros rows H Ho. unfold groups_of in H. injection H as B D Y _ _ _ _.
    destruct rows as [|a [|b rows]]; try discriminate. simpl in B, D, Y. injection B as Ba Bb _. injection D as Da Db _. injection Y as Ya Yb _.
    apply StronglySorted_inv in Ho. destruct Ho as (_ & F). apply Forall_inv in F. unfold g_jd in F. rewrite <- Ba, <- Bb, <- Da, <- Db, <- Ya, <- Yb in F.
    destruct F as [F|(_ & F)]; [apply Qlt_irrefl in F; exact F|lia].
Qed.

(** Weights that are given are lost: a file has no place for them and a reader
    gets ones. *)
Definition one_l : list (@integration (Z * Z) Z Z) := [at_ 10 Zenith [((7, 3), [cell0 11])]].
Lemma C113_weights_refuted_proof : exists f d i,
  nth_error one_l 0 = Some i /\ write_uvfits sky0 exact [Named "XX"] [[40; 42]]%Q ex_ants (calls0 [-5] one_l) = Ok f /\ get_data_set_uv sky0 (open_uv f) f 1 false = Ok d /\
  map snd (s_pols d) = [[[1; 1]]] /\ map (fun e => map snd (snd e)) (entries_of sky0 1 2 false i) = [[[11; 11]]].
Proof.
  eexists. eexists. eexists. split; [reflexivity|]. split; [vm_compute; reflexivity|]. split; [vm_compute; reflexivity|].
  split; vm_compute; reflexivity.
Qed.

(** Two integrations closer than the stored numbers can tell are read as one,
    with the baselines of both. *)
Definition close_l : list (@integration (Z * Z) Z Z) := [at_ 10 Zenith [((7, 3), [cell0 11])]; at_ (10 + (1 # 2097152)) Zenith [((7, 3), [cell0 21])]].
Lemma C113_close_integrations_refuted_proof : exists f d,
  in_order sky0 close_l /\ write_uvfits sky0 grid20 [Named "XX"] [[40; 42]]%Q ex_ants (calls0 [-5] close_l) = Ok f /\
  length (r_times (open_uv f)) = 1%nat /\ get_data_set_uv sky0 (open_uv f) f 1 false = Ok d /\ s_bl d = [(0, 1); (0, 1)].
Proof.
  eexists. eexists. split; [repeat constructor; simpl; lra|]. split; [vm_compute; reflexivity|]. split; [vm_compute; reflexivity|]. split; [vm_compute; reflexivity|]. reflexivity.
Qed.

(** Stands from 1000 on lose their thousands: the stands 1 and 1001 are read as 1 and 1. *)
Lemma C114_stands_refuted_proof : exists f,
  write_uvfits sky0 exact [Named "XX"; Named "YY"] [[40; 42]]%Q [(1, 100); (1001, 101)]
    (calls0 [-5; -6] [at_ 10 Zenith [((1, 1001), [cell0 11; cell0 12])]]) = Ok f /\ r_stands (open_uv f) = [1; 1].
Proof. eexists. split; [vm_compute; reflexivity|]. vm_compute. reflexivity. Qed.
(** Two frequency setups can be set but not be written. *)
Lemma C114_two_bands_refuted_proof : snd (set_up (P := Z) (X := Z) [Named "XX"] [[40; 42]; [60; 62]]%Q ex_ants (calls0 [-5] one_l)) = Ok tt /\
  write_uvfits sky0 exact [Named "XX"] [[40; 42]; [60; 62]]%Q ex_ants (calls0 [-5] one_l) = Raise RuntimeError.
Proof. split; vm_compute; reflexivity. Qed.

(** write() refuses to write a file without polarizations, frequencies, antennas
    or data, or with more than one frequency setup, and changes nothing then. *)
Lemma C116_refuses_proof : forall V W U P X (E : sky V W U P) par (w : writer V W P X),
  w_nstokes w = 0 \/ (length (w_freq w) <> 1)%nat \/ w_array w = [] \/ w_data w = [] ->
  write_uv E par w = (w, Raise RuntimeError).
Proof.
  intros V W U P X E par w H. unfold write_uv. unfold zlen. destruct (Z.eqb_spec (w_nstokes w) 0) as [_|N1]; auto.
  destruct (w_freq w) as [|b [|b' bs]]; cbn [length]; auto.
  - change (Z.of_nat 1 =? 0) with false. change (1 <? Z.of_nat 1) with false. cbv iota. destruct (w_array w) as [|g gs]; auto.
    destruct (w_data w) as [|d ds]; auto. destruct H as [H|[H|[H|H]]]; try discriminate; try contradiction; exfalso; apply H; reflexivity.
  - destruct (Z.eqb_spec (Z.of_nat (S (S (length bs)))) 0); [lia|]. destruct (Z.ltb_spec 1 (Z.of_nat (S (S (length bs))))); [auto|lia].
Qed.
(** Whatever happens in write(), the settings stay.  If it succeeds the data are
    gone from the writer; if it fails every data set is still there. *)
Lemma C116_data_proof : forall V W U P X (E : sky V W U P) par (w : writer V W P X) w' r, write_uv E par w = (w', r) ->
  w' = with_data w (w_data w') /\ match r with Ok _ => w_data w' = [] | Raise _ => Permutation (w_data w') (w_data w) end.
Proof. apply write_keeps. Qed.
(** A second write() finds no data.  Data of a polarization that was not set make
    write() fail, and they are still there then. *)
Lemma C116_data_example_proof : exists f, let w := fst (set_up [Named "XX"] [[40; 42]]%Q ex_ants (calls0 [-5] one_l)) in
  let w2 := fst (set_up [Named "XX"] [[40; 42]]%Q ex_ants (calls0 [-6] one_l)) in
  length (w_data w) = 1%nat /\ snd (write_uv sky0 exact w) = Ok f /\ snd (write_uv sky0 exact (fst (write_uv sky0 exact w))) = Raise RuntimeError /\
  snd (write_uv sky0 exact w2) = Raise NameError /\ length (w_data (fst (write_uv sky0 exact w2))) = 1%nat.
Proof. eexists. cbv zeta. split; [reflexivity|]. split; [vm_compute; reflexivity|]. split; [vm_compute; reflexivity|]. split; vm_compute; reflexivity. Qed.
