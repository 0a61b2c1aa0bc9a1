(** What a FITS IDI file is for: the integrations that went in come out again. *)
From Coq Require Import String.
From Coq Require Import List ZArith QArith Qabs Sorted Permutation Bool.
From Verif Require Import M_Idi.
Import ListNotations.
Open Scope Z_scope.

(** The numbers of polarizations in FITS files *)
Definition code_name (c : Z) : option string :=
  option_map snd (find (fun p => fst p =? c)
    [(1, "I"); (2, "Q"); (3, "U"); (4, "V"); (-1, "RR"); (-2, "LL"); (-3, "RL"); (-4, "LR"); (-5, "XX"); (-6, "YY"); (-7, "XY"); (-8, "YX")]%string).
(** A polarization given by its number or by its name in any letter case *)
Definition stands_for (p : polarization) (c : Z) : Prop :=
  match p with Code c' => c' = c | Named n => code_name c = Some (upper n) end.

Section Spec.
Context {V W U P X : Type} (E : sky V W U P).

(** ** What goes in *)

(** One integration: for every baseline (a pair of stand numbers) and every
    polarization the visibilities and the weights of its channels. *)
Record integration := mkInt {
  i_time : Q; i_length : Q; i_source : source P;
  i_rows : list ((Z * Z) * list (list V * list W));
  i_weighted : nat -> bool  (** whether weights are given with the polarization *) }.

Definition cell (p : nat) (r : (Z * Z) * list (list V * list W)) : list V * list W := nth p (snd r) ([], []).

(** The calls of add_data_set for an integration, one for each polarization *)
Record call := mkCall { c_time : Q; c_int : Q; c_bl : list (Z * Z); c_vis : list (list V); c_wgt : option (list (list W)); c_pol : polarization; c_src : source P }.
Definition call_for (i : integration) (code : Z) (p : nat) : call :=
  mkCall (i_time i) (i_length i) (map fst (i_rows i)) (map (fun r => fst (cell p r)) (i_rows i))
         (if i_weighted i p then Some (map (fun r => snd (cell p r)) (i_rows i)) else None) (Code code) (i_source i).
Definition calls_for (codes : list Z) (i : integration) : list call :=
  map (fun p => call_for i (nth p codes 0) p) (seq 0 (length codes)).

(** The same call with the polarization given in another way *)
Definition spelled (c c' : call) : Prop :=
  c' = mkCall (c_time c) (c_int c) (c_bl c) (c_vis c) (c_wgt c) (c_pol c') (c_src c) /\
  exists code, c_pol c' = Code code /\ stands_for (c_pol c) code.
(** The calls for some integrations, in any order *)
Definition calls_of (codes : list Z) (l : list integration) (calls : list call) : Prop :=
  exists calls', Forall2 spelled calls calls' /\ Permutation calls' (flat_map (calls_for codes) l).

(** A program that writes a file: the calls, then write() *)
Definition then_ {A} (x : A * res unit) (f : A -> A * res unit) : A * res unit :=
  match snd x with Ok _ => f (fst x) | Raise e => (fst x, Raise e) end.
Definition add_call (w : writer V W P X) (c : call) : writer V W P X * res unit :=
  add_data_set w (c_time c) (c_int c) (c_bl c) (c_vis c) (c_wgt c) (c_pol c) (c_src c).
Definition write_file (k : kind) (mode : string) (pols : list polarization) (bands : list (list Q)) (antennas : list (Z * X)) (calls : list call)
  : res (fits V W U P X) :=
  let w := (set_mode (new_writer k) mode, Ok tt) in
  let w := then_ w (fun w => set_stokes w pols) in
  let w := fold_left (fun w b => then_ w (fun w => set_frequency w b)) bands w in
  let w := then_ w (fun w => set_geometry w antennas) in
  let w := fold_left (fun w c => then_ w (fun w => add_call w c)) calls w in
  match snd w with Ok _ => snd (write E (fst w)) | Raise e => Raise e end.

(** Codes of polarizations that follow each other as those of a FITS axis do:
    1, 2, ... up to 4, or -1, -2, ... down to -8, starting anywhere *)
Definition axis (codes : list Z) : Prop :=
  codes <> [] /\ (Forall (fun c => 1 <= c <= 4) codes \/ Forall (fun c => -8 <= c <= -1) codes) /\
  forall k a b, nth_error codes k = Some a -> nth_error codes (S k) = Some b -> b = a + Z.sgn a.

(** The same polarizations in any order, perhaps more than once *)
Definition names_axis (pols : list polarization) (codes : list Z) : Prop :=
  (forall p, In p pols -> exists c, In c codes /\ stands_for p c) /\ (forall c, In c codes -> exists p, In p pols /\ stands_for p c).

(** Bands with the same number of channels, all of the same width *)
Definition regular (width : Q) (nchan : nat) (bands : list (list Q)) : Prop :=
  bands <> [] /\ (1 < nchan)%nat /\ (0 < width)%Q /\
  Forall (fun b => length b = nchan /\ forall k, (k < nchan)%nat -> (nth k b 0 == nth 0 b 0 + inject_Z (Z.of_nat k) * width)%Q) bands.

(** Stands that a file of a kind can tell apart *)
Definition numbered (k : kind) (stands : list Z) : Prop :=
  stands <> [] /\ NoDup stands /\ Forall (fun s => 0 <= s <= 999) stands /\ zlen stands <= max_ants k.

(** A mode that does not turn a file into one of another kind *)
Definition plain_mode (k : kind) (mode : string) : Prop :=
  k = Aips \/ k = ExtendedIdi \/ (k = Idi /\ String.prefix "EXTENDED-" mode = false /\ String.prefix "IDI-EXTENDED-" mode = false).

(** A complete integration: each of its baselines once, with all channels of all polarizations *)
Definition complete (stands : list Z) (npol : nat) (nchan : Z) (i : integration) : Prop :=
  i_rows i <> [] /\ NoDup (map fst (i_rows i)) /\
  Forall (fun r => In (fst (fst r)) stands /\ In (snd (fst r)) stands /\ length (snd r) = npol /\
                   Forall (fun c => zlen (fst c) = nchan /\ zlen (snd c) = nchan) (snd r)) (i_rows i).

(** Integrations with as many baselines have the same baselines in the same order. *)
Definition same_layout (l : list integration) : Prop :=
  forall i j, In i l -> In j l -> length (i_rows i) = length (i_rows j) -> map fst (i_rows i) = map fst (i_rows j).

Definition center_of (i : integration) : str * P := (src_name E (i_source i) (i_time i), src_pos E (i_source i) (i_time i)).
(** A name stands for one position, and no body is called 'z'. *)
Definition one_position_per_name (l : list integration) : Prop :=
  (forall i j, In i l -> In j l -> fst (center_of i) = fst (center_of j) -> snd (center_of i) = snd (center_of j)) /\
  (forall i, In i l -> fst (center_of i) <> [122]).

(** Later integrations have later dates. *)
Definition in_order (l : list integration) : Prop :=
  StronglySorted (fun i j => i_time i < i_time j /\ utcjd E (i_time i) < utcjd E (i_time j))%Q l.

(** What it takes for a list of integrations to be written as a file *)
Definition writable (k : kind) (mode : string) (pols : list polarization) (codes : list Z) (width : Q) (nchan : nat) (bands : list (list Q))
    (antennas : list (Z * X)) (l : list integration) (calls : list call) : Prop :=
  plain_mode k mode /\ axis codes /\ names_axis pols codes /\ regular width nchan bands /\ numbered k (map fst antennas) /\ l <> [] /\
  Forall (complete (map fst antennas) (length codes) (Z.of_nat (nchan * length bands))) l /\ same_layout l /\ one_position_per_name l /\
  in_order l /\ calls_of codes l calls.

(** ** What comes out *)

(** A baseline of an integration as it is read: uvw, visibilities and weights *)
Definition entry : Type := (Z * Z) * U * list (list V * list W).
Definition entry_of (npol : nat) (nchan : Z) (i : integration) (r : (Z * Z) * list (list V * list W)) : entry :=
  (fst r, u32 E (uvw E (i_source i) (i_time i) (fst r)),
   map (fun p => (map (v32 E) (fst (cell p r)), if i_weighted i p then map (w32 E) (snd (cell p r)) else repeat (w1 E) (Z.to_nat nchan))) (seq 0 npol)).
Definition wanted (include_auto : bool) (e : entry) : bool := include_auto || negb (fst (fst (fst e)) =? snd (fst (fst e))).
Definition entries_of (npol : nat) (nchan : Z) (include_auto : bool) (i : integration) : list entry :=
  filter (wanted include_auto) (map (entry_of npol nchan i) (i_rows i)).

(** What a data set returned by get_data_set says, baseline by baseline: the
    antennas are positions in the list of stands of the reader. *)
Definition is_stand (stands : list Z) (k s : Z) : Prop := 0 <= k /\ nth_error stands (Z.to_nat k) = Some s.
Definition says (stands : list Z) (names : list string) (d : @dataset_read V W U P) (l : list entry) : Prop :=
  Forall2 (fun b e => is_stand stands (fst b) (fst (fst (fst e))) /\ is_stand stands (snd b) (snd (fst (fst e)))) (s_bl d) l /\
  s_uvw d = map (fun e => snd (fst e)) l /\
  s_pols d = map (fun np => (snd np, map (fun e => fst (nth (fst np) (snd e) ([], []))) l, map (fun e => snd (nth (fst np) (snd e) ([], []))) l))
                 (combine (seq 0 (length names)) names).

(** ** The tables of a file *)

(** One row of UV_DATA *)
Record uvrow := mkRow { t_bl : Z; t_date : Q; t_time : Q; t_int : Q; t_uvw : U; t_src : Z; t_wgt : list W; t_flux : list V }.
Definition table_of (l : list uvrow) : uvdata V W U :=
  mkUV (map t_bl l) (map t_date l) (map t_time l) (map t_int l) (map t_uvw l) (map t_src l) (map t_wgt l) (map t_flux l).

(** The rows of a list sorted by time, then by baseline *)
Definition time_baseline_order (l : list uvrow) : Prop :=
  StronglySorted (fun a b => (t_date a + t_time a < t_date b + t_time b)%Q \/
                             ((t_date a + t_time a == t_date b + t_time b)%Q /\ t_bl a < t_bl b)) l.
End Spec.
