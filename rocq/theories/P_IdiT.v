From Coq Require Import String.
From Coq Require Import List ZArith QArith Qabs Qround Sorted Permutation Bool Lia Lqa.
From Verif Require Import M_Idi S_Idi P_Base P_Str P_Idi P_Idi2 P_Idi3 P_Idi4 P_Idi5.
Import ListNotations.
Open Scope Z_scope.

Lemma axis_named : forall codes, axis codes -> exists names, Forall2 (fun c nm => code_name c = Some nm) codes names.
Proof.
  intros codes (_ & R & _). assert (F : Forall (fun c => 1 <= c <= 4 \/ -8 <= c <= -1) codes).
  { destruct R as [R|R]; eapply Forall_impl; try apply R; cbn beta; auto. }
  clear R. induction F as [|c l H F (names & IH)]; [exists []; constructor|].
  assert (N : exists nm, code_name c = Some nm).
  { assert (c = 1 \/ c = 2 \/ c = 3 \/ c = 4 \/ c = -1 \/ c = -2 \/ c = -3 \/ c = -4 \/ c = -5 \/ c = -6 \/ c = -7 \/ c = -8) as C by lia.
    repeat (destruct C as [-> | C]; [eexists; reflexivity|]). subst c. eexists; reflexivity. }
  destruct N as (nm & N). exists (nm :: names). constructor; auto.
Qed.

Lemma sorted_with : forall A (R S : A -> A -> Prop) (Q : A -> Prop) l, StronglySorted R l -> Forall Q l -> (forall a b, Q a -> Q b -> R a b -> S a b) -> StronglySorted S l.
Proof.
  induction l as [|a l IH]; intros Hs F H; constructor; inversion Hs as [|? ? H1 H2]; inversion F as [|? ? F1 F2]; subst; auto.
  rewrite Forall_forall in *. intros b Ib. apply H; auto.
Qed.

(** Reading a file that was written returns every integration: its date, its
    phase center, its integration time, and for every baseline its coordinates
    and the visibilities and weights of all channels of all polarizations (in
    single precision), whatever the order of the calls of add_data_set.
    Baselines of a stand with itself are left out unless they are asked for. *)
Lemma C68_read_back_proof : forall V W U P X (E : sky V W U P) k mode pols codes names width nchan bands (antennas : list (Z * X)) l calls,
  (forall v, conj E (v32 E (conj E v)) = v32 E v) ->
  Forall2 (fun c nm => code_name c = Some nm) codes names ->
  writable E k mode pols codes width nchan bands antennas l calls ->
  exists f, write_file E k mode pols bands antennas calls = Ok f /\
    forall j i auto, nth_error l j = Some i ->
    exists d es, get_data_set E (open_idi f) f (Z.of_nat j + 1) auto = Ok d /\
      (s_jd d == utcjd E (i_time i))%Q /\ s_freq d = r_freq (open_idi f) /\
      s_center d = (firstn 16 (fst (center_of E i)), snd (center_of E i)) /\
      s_int d = map (fun _ => q32 E (i_length i)) (i_rows i) /\
      Permutation es (entries_of E (length codes) (Z.of_nat (nchan * length bands)) auto i) /\ says (map fst antennas) names d es.
Proof.
  intros V W U P X E k mode pols codes names width nchan bands antennas l calls Hc Hn (H1 & H2 & H3 & H4 & H5 & H6 & H7 & H8 & H9 & H10 & H11).
  destruct (write_ok E k mode pols codes names width nchan bands antennas l calls H1 H2 H3 Hn H4 H5 H6 H7 H8 H9 H10 H11) as (ref & fs & Hw & Hf).
  eexists. split; [exact Hw|]. intros j i auto Hj.
  destruct (get_ok E k mode codes names width nchan bands antennas l H1 H2 Hn H5 H7 H9 H10 Hc ref fs Hf j i auto Hj) as (d & es & G). exists d, es. exact G.
Qed.

(** Opening a file that was written gives its stands and antennas in the order of
    set_geometry, its polarizations, its frequencies (the channel width being a
    number of single precision) and the dates of its integrations. *)
Lemma C69_open_proof : forall V W U P X (E : sky V W U P) k mode pols codes width nchan bands (antennas : list (Z * X)) l calls,
  (forall w, w == width -> q32 E w == width)%Q ->
  writable E k mode pols codes width nchan bands antennas l calls ->
  exists f, write_file E k mode pols bands antennas calls = Ok f /\
    r_stands (open_idi f) = map fst antennas /\ r_ants (open_idi f) = antennas /\ r_pols (open_idi f) = codes /\
    Forall2 Qeq (r_freq (open_idi f)) (concat bands) /\ Forall2 Qeq (r_times (open_idi f)) (map (fun i => utcjd E (i_time i)) l).
Proof.
  intros V W U P X E k mode pols codes width nchan bands antennas l calls Hq (H1 & H2 & H3 & H4 & H5 & H6 & H7 & H8 & H9 & H10 & H11).
  destruct (axis_named codes H2) as (names & Hn).
  destruct (write_ok E k mode pols codes names width nchan bands antennas l calls H1 H2 H3 Hn H4 H5 H6 H7 H8 H9 H10 H11) as (ref & fs & Hw & Hf).
  eexists. split; [exact Hw|]. destruct (reader_ok E k mode codes nchan bands antennas l H1 H5 ref fs) as (R1 & R2 & _).
  split; [exact R1|]. split; [exact R2|]. split; [apply pols_ok; auto|]. split; [eapply freq_ok; eauto|].
  rewrite times_ok by auto. clear. induction l as [|i l IH]; simpl; constructor; auto. apply J_eq.
Qed.

(** The rows of the UV_DATA table are sorted by time and baseline, as the file says. *)
Lemma C70_row_order_proof : forall V W U P X (E : sky V W U P) k mode pols codes width nchan bands (antennas : list (Z * X)) l calls,
  writable E k mode pols codes width nchan bands antennas l calls ->
  exists f rows, write_file E k mode pols bands antennas calls = Ok f /\ f_uv f = table_of rows /\ time_baseline_order rows /\
    length rows = fold_right Nat.add O (map (fun i => length (i_rows i)) l).
Proof.
  intros V W U P X E k mode pols codes width nchan bands antennas l calls (H1 & H2 & H3 & H4 & H5 & H6 & H7 & H8 & H9 & H10 & H11).
  destruct (axis_named codes H2) as (names & Hn).
  destruct (write_ok E k mode pols codes names width nchan bands antennas l calls H1 H2 H3 Hn H4 H5 H6 H7 H8 H9 H10 H11) as (ref & fs & Hw & Hf).
  pose proof (plain_some k mode H1) as Hk. destruct (kind_max k antennas Hk) as (_ & Sh).
  eexists. eexists. split; [exact Hw|]. split; [reflexivity|]. split.
  - eapply sorted_flat; [apply (J_sorted E l H10)| |].
    + intros i Ii. apply (sorted_with _ (fun a b : @uvrow V W U => t_bl a < t_bl b) _ (fun u => jd u = J E i)).
      * apply (block_sorted E (bit_shift k) (map fst antennas) (num k antennas) Sh (num_range k antennas Hk H5) (num_inj k antennas H5)).
        rewrite Forall_forall in H7. apply (H7 i Ii).
      * apply (blk_ok E k mode codes nchan bands antennas l H1 H5 H7 i Ii).
      * intros x y Ex Ey Lt. right. unfold jd in Ex, Ey. rewrite Ex, Ey. split; [reflexivity|exact Lt].
    + intros i j x y Ii Ij Lt Ix Iy. left. unfold block in Ix, Iy. apply in_map_iff in Ix. destruct Ix as (a & <- & _).
      apply in_map_iff in Iy. destruct Iy as (b & <- & _). exact Lt.
  - assert (G : forall m, (forall i, In i m -> In i l) ->
      length (flat_map (block E (bit_shift k) (num k antennas) codes (nchan * length bands) (fold_left (add_source E) l [])) m) = fold_right Nat.add O (map (fun i => length (i_rows i)) m)).
    { induction m as [|i m IH]; intro Im; simpl; auto. rewrite app_length, IH by (intros; apply Im; right; auto). f_equal.
      unfold block. rewrite map_length. apply (rows_ok k mode codes nchan bands antennas l H1 H5 H7). apply Im. left. auto. }
    apply G. auto.
Qed.

(** ** Examples *)

(** A sky whose coordinates of a baseline are the stands themselves *)
Definition sky0 : sky (Z * Z) Z (Z * Z) Z :=
  mkSky (fun v => (fst v, - snd v)) (fun v => v) (0, 0) (fun w => w) 1 (fun u => u) (fun q => q)
        (fun t => t + 2400001)%Q (fun t => inject_Z (Qfloor t + 2400001))%Q (fun _ => [90; 65]) (fun _ => 90) (fun _ _ b => b).
(** One integration of some baselines, with the two channels of each of its polarizations *)
Definition at_ (t : Q) (src : source Z) (rows : list ((Z * Z) * list (list (Z * Z) * list Z))) : @integration (Z * Z) Z Z := mkInt t 5 src rows (fun _ => true).
Definition cell0 (v : Z) : list (Z * Z) * list Z := ([(v, 1); (v, 2)], [v; v]).
Definition calls0 (pols : list Z) (l : list (@integration (Z * Z) Z Z)) : list (@call (Z * Z) Z Z) := flat_map (calls_for pols) l.

Definition ex_ants : list (Z * Z) := [(7, 100); (3, 101); (300, 102)].
Definition ex_bands : list (list Q) := [[40; 42]; [60; 62]]%Q.
Definition ex_cell (v : Z) : list (Z * Z) * list Z := ([(v, 1); (v, 2); (v, 3); (v, 4)], [v; v; v; v]).
Definition ex_l4 : list (@integration (Z * Z) Z Z) :=
  [at_ 10 Zenith [((7, 3), [ex_cell 11; ex_cell 12]); ((7, 300), [ex_cell 13; ex_cell 14]); ((3, 3), [ex_cell 15; ex_cell 16])];
   at_ (21 # 2) (Body [83; 117; 110] 5) [((300, 7), [ex_cell 21; ex_cell 22]); ((3, 7), [ex_cell 23; ex_cell 24])]].

Ltac each t := repeat (apply Forall_cons; [t|]); apply Forall_nil.
Ltac is_complete := split; [discriminate|]; split; [cbn; repeat (apply NoDup_cons; [cbn; intuition congruence|]); apply NoDup_nil|];
  cbn [i_rows at_]; each ltac:(cbn [fst snd map ex_ants]; split; [simpl; auto 6|split; [simpl; auto 6|split; [reflexivity|each ltac:(split; reflexivity)]]]).

Lemma ex_spelled : forall codes l, Forall2 spelled (calls0 codes l) (calls0 codes l).
Proof.
  intros codes l. assert (G : Forall (fun c : @call (Z * Z) Z Z => exists code, c_pol c = Code code) (calls0 codes l)).
  { apply Forall_forall. intros c Ic. apply in_flat_map in Ic. destruct Ic as (i & _ & Ic). apply in_map_iff in Ic. destruct Ic as (p & <- & _). eexists. reflexivity. }
  induction G as [|c m (code & Hc) G IH]; constructor; auto. split; [destruct c; reflexivity|]. exists code. split; auto. rewrite Hc. reflexivity.
Qed.
Lemma ex_calls_of : forall codes l, calls_of codes l (calls0 codes l).
Proof. intros. exists (calls0 codes l). split; [apply ex_spelled|apply Permutation_refl]. Qed.
Lemma ex_calls_rev : forall codes l, calls_of codes l (rev (calls0 codes l)).
Proof.
  intros. exists (rev (calls0 codes l)). split; [|symmetry; apply Permutation_rev].
  assert (G : forall a b : list (@call (Z * Z) Z Z), Forall2 spelled a b -> Forall2 spelled (rev a) (rev b)).
  { induction 1 as [|x y m m' Ha H IH]; [constructor|]. simpl. apply Forall2_app; auto. }
  apply G, ex_spelled.
Qed.

(** Three stands, one of them too large for the baseline numbers of a file, two
    bands, and two integrations, written in reverse order *)
Lemma C68_read_back_example_proof : (forall v, conj sky0 (v32 sky0 (conj sky0 v)) = v32 sky0 v) /\
  Forall2 (fun c nm => code_name c = Some nm) [-5; -6] ["XX"; "YY"]%string /\
  writable sky0 Idi "ZA" [Named "yy"; Named "XX"; Code (-6)] [-5; -6] 2 2 ex_bands ex_ants ex_l4 (rev (calls0 [-5; -6] ex_l4)).
Proof.
  split; [intros [a b]; cbn; rewrite Z.opp_involutive; reflexivity|]. split; [repeat constructor|].
  split; [right; right; auto|]. split.
  { split; [discriminate|]. split; [right; repeat constructor; lia|]. intros [|[|[|k]]] a b Ha Hb; simpl in *; try discriminate. injection Ha as <-. injection Hb as <-. reflexivity. }
  split. { split; [intros p [<-|[<-|[<-|[]]]]|intros c [<-|[<-|[]]]].
    - exists (-6). simpl. auto.
    - exists (-5). simpl. auto.
    - exists (-6). simpl. auto.
    - exists (Named "XX"). simpl. auto.
    - exists (Named "yy"). simpl. auto. }
  split. { split; [discriminate|]. split; [lia|]. split; [reflexivity|]. repeat constructor; intros [|[|k]] H; try lia; reflexivity. }
  split. { split; [discriminate|]. split; [|split; [simpl; repeat (apply Forall_cons; [lia|]); apply Forall_nil|simpl; vm_compute; discriminate]].
    simpl. repeat constructor; simpl; intuition lia. }
  split; [discriminate|]. split.
  { each ltac:(is_complete). }
  split. { intros i j [<-|[<-|[]]] [<-|[<-|[]]]; simpl; auto; discriminate. }
  split. { split; [intros i j [<-|[<-|[]]] [<-|[<-|[]]]; simpl; auto; discriminate|]. intros i [<-|[<-|[]]]; discriminate. }
  split; [|apply ex_calls_rev].
  repeat constructor; simpl; lra.
Qed.

(** The same case for what the reader has when it is open *)
Lemma C69_open_example_proof : (forall w, w == 2 -> q32 sky0 w == 2)%Q /\
  writable sky0 Idi "ZA" [Named "yy"; Named "XX"; Code (-6)] [-5; -6] 2 2 ex_bands ex_ants ex_l4 (rev (calls0 [-5; -6] ex_l4)).
Proof. split; [auto|]. apply C68_read_back_example_proof. Qed.
(** The same case: the five baselines of the file, in order.  The stands 7, 3 and
    300 are the antennas 1, 2 and 3 of the file. *)
Lemma C70_row_order_example_proof :
  writable sky0 Idi "ZA" [Named "yy"; Named "XX"; Code (-6)] [-5; -6] 2 2 ex_bands ex_ants ex_l4 (rev (calls0 [-5; -6] ex_l4)) /\
  exists f, write_file sky0 Idi "ZA" [Named "yy"; Named "XX"; Code (-6)] ex_bands ex_ants (rev (calls0 [-5; -6] ex_l4)) = Ok f /\
    u_bl (f_uv f) = [256 + 2; 256 + 3; 512 + 2; 512 + 1; 768 + 1].
Proof. split; [apply C68_read_back_example_proof|]. eexists. split; [vm_compute; reflexivity|]. vm_compute. reflexivity. Qed.

(** ** What goes wrong *)
Definition ants3 : list (Z * Z) := [(1, 100); (2, 101); (3, 102)].
Definition band2 : list (list Q) := [[40; 42]]%Q.

(** The order of the baselines found for an integration is used for the next ones
    as long as the number of baselines is the same.  If a later integration lists
    its baselines in another order, its visibilities are stored with the wrong baselines. *)
Definition swapped_l : list (@integration (Z * Z) Z Z) :=
  [at_ 10 Zenith [((1, 2), [cell0 11]); ((1, 3), [cell0 12])]; at_ 11 Zenith [((1, 3), [cell0 21]); ((1, 2), [cell0 22])]].
Lemma C68_baseline_order_refuted_proof : exists f d i,
  Forall (complete (map fst ants3) 1 2) swapped_l /\ one_position_per_name sky0 swapped_l /\ in_order sky0 swapped_l /\
  write_file sky0 Idi "ZA" [Named "XX"] band2 ants3 (calls0 [-5] swapped_l) = Ok f /\
  nth_error swapped_l 1 = Some i /\ get_data_set sky0 (open_idi f) f 2 false = Ok d /\
  ~ exists es, Permutation es (entries_of sky0 1 2 false i) /\ says (map fst ants3) ["XX"%string] d es.
Proof.
  eexists. eexists. eexists. split; [each ltac:(is_complete)|].
  split. { split; [intros i j [<-|[<-|[]]] [<-|[<-|[]]]; reflexivity|]. intros i [<-|[<-|[]]]; discriminate. }
  split; [repeat constructor; simpl; lra|]. split; [vm_compute; reflexivity|]. split; [reflexivity|]. split; [vm_compute; reflexivity|].
  intros (es & Pm & Hs & _ & Hp). cbn in Hs. inversion Hs as [|? e ? ? (He & He') Hs']; subst. inversion Hs' as [|? e2 ? ? (Ke & Ke') Hs2]; subst. inversion Hs2; subst.
  clear Hs Hs' Hs2. destruct He as (_ & He), He' as (_ & He'), Ke as (_ & Ke), Ke' as (_ & Ke'). cbn in He, He', Ke, Ke'.
  assert (I : In e (entries_of sky0 1 2 false (at_ 11 Zenith [((1, 3), [cell0 21]); ((1, 2), [cell0 22])]))) by (eapply Permutation_in; [exact Pm|left; auto]).
  cbn in I. destruct I as [<-|[<-|[]]]; cbn in He', Hp; discriminate.
Qed.

(** Two bodies of one name at different places: the second gets the place of the first. *)
Definition named_l : list (@integration (Z * Z) Z Z) :=
  [at_ 10 (Body [65] 1) [((1, 2), [cell0 11])]; at_ 11 (Body [65] 2) [((1, 2), [cell0 21])]].
Lemma C68_same_name_refuted_proof : exists f d i,
  Forall (complete (map fst ants3) 1 2) named_l /\ same_layout named_l /\ in_order sky0 named_l /\
  write_file sky0 Idi "ZA" [Named "XX"] band2 ants3 (calls0 [-5] named_l) = Ok f /\
  nth_error named_l 1 = Some i /\ get_data_set sky0 (open_idi f) f 2 false = Ok d /\
  snd (center_of sky0 i) = 2 /\ snd (s_center d) = 1.
Proof.
  eexists. eexists. eexists. split; [each ltac:(is_complete)|].
  split. { intros i j [<-|[<-|[]]] [<-|[<-|[]]]; simpl; auto. }
  split; [repeat constructor; simpl; lra|]. split; [vm_compute; reflexivity|]. split; [reflexivity|]. split; [vm_compute; reflexivity|]. split; reflexivity.
Qed.

(** An integration without its last polarization is written without any visibilities:
    the file has two rows but visibilities for one only, which
    belong to the second integration and are in the row of the first. *)
Definition short_l : list (@integration (Z * Z) Z Z) :=
  [at_ 10 Zenith [((1, 2), [cell0 11; cell0 12])]; at_ 11 Zenith [((1, 2), [cell0 21; cell0 22])]].
Lemma C68_missing_last_refuted_proof : exists f calls,
  Permutation (calls0 [-5; -6] short_l) (call_for (at_ 10 Zenith [((1, 2), [cell0 11; cell0 12])]) (-6) 1 :: calls) /\
  write_file sky0 Idi "ZA" [Named "XX"; Named "YY"] band2 ants3 calls = Ok f /\
  length (u_bl (f_uv f)) = 2%nat /\ u_flux (f_uv f) = [[(21, -1); (22, -1); (21, -2); (22, -2)]] /\
  map (fun q => Qcompare q (utcjd sky0 10)) (jds (f_uv f)) = [Eq; Gt].
Proof.
  exists (match write_file sky0 Idi "ZA" [Named "XX"; Named "YY"] band2 ants3 [call_for (at_ 10 Zenith [((1, 2), [cell0 11; cell0 12])]) (-5) 0; call_for (at_ 11 Zenith [((1, 2), [cell0 21; cell0 22])]) (-5) 0; call_for (at_ 11 Zenith [((1, 2), [cell0 21; cell0 22])]) (-6) 1] with Ok f => f | Raise _ => mkF "" [] None [] [] 0%Q 0 0 0 0 (mkUV [] [] [] [] [] [] [] []) end).
  eexists. split; [apply perm_swap|]. split; [vm_compute; reflexivity|]. split; [vm_compute; reflexivity|]. split; vm_compute; reflexivity.
Qed.
(** An integration without its first polarization is stored with that of the
    integration before it: the file has two rows of visibilities for one baseline. *)
Lemma C68_missing_first_refuted_proof : exists f calls,
  Permutation (calls0 [-5; -6] short_l) (call_for (at_ 11 Zenith [((1, 2), [cell0 21; cell0 22])]) (-5) 0 :: calls) /\
  write_file sky0 Idi "ZA" [Named "XX"; Named "YY"] band2 ants3 calls = Ok f /\
  length (u_bl (f_uv f)) = 1%nat /\ u_flux (f_uv f) = [[(11, -1); (12, -1); (11, -2); (12, -2)]; [(11, -1); (22, -1); (11, -2); (22, -2)]].
Proof.
  exists (match write_file sky0 Idi "ZA" [Named "XX"; Named "YY"] band2 ants3 [call_for (at_ 10 Zenith [((1, 2), [cell0 11; cell0 12])]) (-5) 0; call_for (at_ 10 Zenith [((1, 2), [cell0 11; cell0 12])]) (-6) 1; call_for (at_ 11 Zenith [((1, 2), [cell0 21; cell0 22])]) (-6) 1] with Ok f => f | Raise _ => mkF "" [] None [] [] 0%Q 0 0 0 0 (mkUV [] [] [] [] [] [] [] []) end).
  eexists. split.
  - cbn [calls0 short_l flat_map calls_for map seq length app nth]. symmetry. etransitivity; [|apply perm_skip, perm_swap]. apply perm_swap.
  - split; [vm_compute; reflexivity|]. split; vm_compute; reflexivity.
Qed.

(** Polarizations that do not follow each other: XX and XY are read as XX and YY. *)
Lemma C69_polarizations_refuted_proof : exists f,
  write_file sky0 Idi "ZA" [Named "XX"; Named "XY"] band2 ants3 (calls0 [-5; -7] short_l) = Ok f /\ r_pols (open_idi f) = [-5; -6].
Proof. eexists. split; [vm_compute; reflexivity|]. vm_compute. reflexivity. Qed.
(** Frequencies in descending order are read in ascending order. *)
Lemma C69_frequencies_refuted_proof : exists f,
  write_file sky0 Idi "ZA" [Named "XX"; Named "YY"] [[42; 40]]%Q ants3 (calls0 [-5; -6] short_l) = Ok f /\ map Qred (r_freq (open_idi f)) = [42; 44]%Q.
Proof. eexists. split; [vm_compute; reflexivity|]. vm_compute. reflexivity. Qed.
(** A single channel cannot be written. *)
Lemma C69_one_channel_refuted_proof : write_file sky0 Idi "ZA" [Named "XX"; Named "YY"] [[42]]%Q ants3 (calls0 [-5; -6] short_l) = Raise IndexError.
Proof. vm_compute. reflexivity. Qed.
(** Stands from 1000 on lose their thousands: the stands 1 and 1001 are read as 1 and 1. *)
Lemma C69_stands_refuted_proof : exists f,
  write_file sky0 ExtendedIdi "ZA" [Named "XX"; Named "YY"] band2 [(1, 100); (1001, 101)]
    (calls0 [-5; -6] [at_ 10 Zenith [((1, 1001), [cell0 11; cell0 12])]]) = Ok f /\ r_stands (open_idi f) = [1; 1].
Proof. eexists. split; [vm_compute; reflexivity|]. vm_compute. reflexivity. Qed.

(** write() refuses to write a file without polarizations, frequencies, antennas
    or data, and changes nothing then. *)
Lemma C71_incomplete_proof : forall V W U P X (E : sky V W U P) (w : writer V W P X),
  w_nstokes w = 0 \/ w_freq w = [] \/ w_array w = [] \/ w_data w = [] -> write E w = (w, Raise RuntimeError).
Proof.
  intros V W U P X E w H. unfold write. destruct (Z.eqb_spec (w_nstokes w) 0); auto. destruct (Z.eqb_spec (zlen (w_freq w)) 0) as [|F]; auto.
  destruct (w_array w) as [|g a] eqn:A; auto. destruct (Z.eqb_spec (zlen (w_data w)) 0) as [|D]; auto.
  destruct H as [H|[H|[H|H]]]; try congruence; rewrite H in *; exfalso; [apply F|apply D]; reflexivity.
Qed.
(** A file is written once: the data are gone after that. *)
Lemma C71_written_once_proof : forall V W U P X (E : sky V W U P) (w : writer V W P X) w' f,
  write E w = (w', Ok f) -> w_data w' = [] /\ write E w' = (w', Raise RuntimeError).
Proof.
  intros V W U P X E w w' f H.
  assert (D : w_data w' = []).
  { unfold write in H. destruct (w_nstokes w =? 0); [discriminate|]. destruct (zlen (w_freq w) =? 0); [discriminate|].
    destruct (w_array w) as [|g a]; [discriminate|]. destruct (zlen (w_data w) =? 0); [discriminate|]. injection H as <- _. reflexivity. }
  split; auto. apply C71_incomplete_proof. auto.
Qed.
(** Polarizations and names that are not known are refused; a name that is not
    known changes nothing in add_data_set, and too many antennas change nothing in set_geometry. *)
Lemma C71_unknown_name_proof : forall V W P X (w : writer V W P X) t int bl vis wgt n src,
  (forall c, code_name c <> Some (upper n)) ->
  add_data_set w t int bl vis wgt (Named n) src = (w, Raise KeyError) /\ snd (set_stokes w [Named n]) = Raise KeyError.
Proof.
  intros V W P X w t int bl vis wgt n src H.
  assert (G : code_of (Named n) = Raise KeyError).
  { cbn [code_of]. unfold stokes_code. destruct (find (fun p => String.eqb (fst p) (upper n)) stokes_codes) as [[nm c]|] eqn:Ec; auto.
    exfalso. apply (H c). apply find_some in Ec. cbn [fst] in Ec. destruct Ec as (I & En). apply String.eqb_eq in En. subst nm.
    unfold stokes_codes in I. repeat (destruct I as [I|I]; [injection I as <- <-; reflexivity|]). destruct I. }
  unfold add_data_set, set_stokes. cbn [add_stokes]. rewrite G. split; reflexivity.
Qed.
Lemma C71_too_many_proof : forall V W P X (w : writer V W P X) antennas,
  max_ants (w_kind w) < zlen antennas -> set_geometry w antennas = (w, Raise RuntimeError).
Proof. intros V W P X w antennas H. unfold set_geometry. rewrite (proj2 (Z.ltb_lt _ _) H). reflexivity. Qed.
(** The names that were read before an unknown one are kept: after a failed call
    for XX and an unknown name a file of YY is one of XX and YY. *)
Lemma C71_failed_call_refuted_proof :
  let w := fst (set_stokes (new_writer Idi : writer Z Z Z Z) [Named "XX"; Named "XZ"]) in
  snd (set_stokes (new_writer Idi : writer Z Z Z Z) [Named "XX"; Named "XZ"]) = Raise KeyError /\ w_stokes (fst (set_stokes w [Named "YY"])) = [-5; -6].
Proof. split; reflexivity. Qed.
(** An unknown name, an incomplete writer and a hundred antennas for AIPS *)
Lemma C71_example_proof : (forall c, code_name c <> Some (upper "XZ")) /\
  w_data (with_freq (new_writer Aips : writer Z Z Z Z) 4 10 2 [mkB 0 2 6]) = [] /\ max_ants Aips < zlen (map (fun s => (s, 0)) (range 1 101)).
Proof.
  split; [|split; reflexivity]. intros c H. unfold code_name in H.
  destruct (find _ _) as [[c' nm]|] eqn:F; [|discriminate]. apply find_some in F. destruct F as (I & _). cbn in H. injection H as H. subst nm.
  cbn in I. repeat (destruct I as [I|I]; [discriminate|]). destruct I.
Qed.
