(** Model of the FITS IDI writers of writer/fitsidi.py and of the reader for
    their files, CorrelatedDataIDI of imaging/utils.py.  A file is what its
    tables hold, column by column; astropy's FITS code is not modelled. *)
From Coq Require Import String.
From Coq Require Import List ZArith QArith Qabs Bool.
From Verif Require Export M_Py LibList M_Str M_Base M_Bar M_Vis.
Import ListNotations.
Open Scope Z_scope.

(** ** Python helpers *)
Fixpoint dset (d : list (Z * Z)) (k v : Z) : list (Z * Z) :=
  match d with
  | [] => [(k, v)]
  | (k', v') :: d' => if k' =? k then (k', v) :: d' else (k', v') :: dset d' k v
  end.
Fixpoint dget (d : list (Z * Z)) (k : Z) : res Z :=
  match d with [] => Raise KeyError | (k', v) :: d' => if k' =? k then Ok v else dget d' k end.
(** l.index(x) *)
Fixpoint list_index {A} (eqb : A -> A -> bool) (x : A) (l : list A) : res Z :=
  match l with [] => Raise ValueError | y :: l' => if eqb y x then Ok 0 else bind (list_index eqb x l') (fun k => Ok (1 + k)) end.
(** An array assigned to [n] places: as many values, or one for all of them. *)
Definition spread {A} (n : Z) (l : list A) : res (list A) :=
  if zlen l =? n then Ok l else match l with [x] => Ok (repeat x (Z.to_nat n)) | _ => Raise ValueError end.

(** ** The writer *)

(** The classes Idi, Aips and ExtendedIdi (fitsidi.py 86-87, 1353-1374, 1433-1456):
    _MAX_ANTS, _PACKING_BIT_SHIFT, the format of the antenna names and what
    comes before the mode in LWATYPE. *)
Record kind := mkKind { max_ants : Z; bit_shift : Z; prefix : str; digits_of : Z; lwatype : string }.
Definition Idi : kind := mkKind 255 8 [76; 87; 65] 3 "".
Definition Aips : kind := mkKind 99 8 [76] 3 "AIPS-".
Definition ExtendedIdi : kind := mkKind 65535 16 [76; 87; 65] 5 "EXTENDED-".
(** get_name (fitsidi.py 104-105, 1373-1374, 1455-1456), for numbers that are not negative *)
Definition get_name (k : kind) (id : Z) : str := prefix k ++ rep 48 (digits_of k - zlen (dec id)) ++ dec id.

(** STOKES_CODES (fitsidi.py 51-53) *)
Definition stokes_codes : list (string * Z) :=
  [("I", 1); ("Q", 2); ("U", 3); ("V", 4); ("RR", -1); ("LL", -2); ("RL", -3); ("LR", -4); ("XX", -5); ("YY", -6); ("XY", -7); ("YX", -8)]%string.
Definition stokes_code (n : string) : res Z :=
  match find (fun p => String.eqb (fst p) n) stokes_codes with Some p => Ok (snd p) | None => Raise KeyError end.
(** NUMERIC_STOKES (fitsidi.py 56-58) *)
Definition numeric_stokes (c : Z) : res string :=
  match find (fun p => snd p =? c) stokes_codes with Some p => Ok (fst p) | None => Raise KeyError end.
Inductive polarization := Named (n : string) | Code (c : Z).
(** fitsidi.py 261-264 and 354-357 *)
Definition code_of (p : polarization) : res Z := match p with Named n => stokes_code (upper n) | Code c => Ok c end.

(** merge_baseline (fitsidi.py 64-70) *)
Definition merge_baseline (ant1 ant2 shift : Z) : Z := Z.lor (Z.shiftl ant1 shift) ant2.

(** A phase center: 'z', or a body with its name and coordinates. *)
Inductive source (P : Type) := Zenith | Body (name : str) (pos : P).
Arguments Zenith {P}. Arguments Body {P} name pos.

(** What the writer takes from numpy, astropy and the sky: complex conjugation,
    rounding to single precision, and for a time (TAI MJD) the UTC Julian date,
    that of 0h of its day, name and coordinates of the zenith, and the uvw
    coordinates of a baseline (correlator/uvutils.py 201-210 makes those of each
    baseline by itself). *)
Record sky (V W U P : Type) := mkSky {
  conj : V -> V; v32 : V -> V; v0 : V;
  w32 : W -> W; w1 : W; u32 : U -> U; q32 : Q -> Q;
  utcjd : Q -> Q; day0 : Q -> Q; zenith_name : Q -> str; zenith_pos : Q -> P;
  uvw : source P -> Q -> Z * Z -> U }.
Arguments mkSky {V W U P}. Arguments conj {V W U P}. Arguments v32 {V W U P}. Arguments v0 {V W U P}. Arguments w32 {V W U P}.
Arguments w1 {V W U P}. Arguments u32 {V W U P}. Arguments q32 {V W U P}. Arguments utcjd {V W U P}. Arguments day0 {V W U P}.
Arguments zenith_name {V W U P}. Arguments zenith_pos {V W U P}. Arguments uvw {V W U P}.

(** _UVData (fitsidi.py 121-144): baselines are pairs of stand numbers, the
    visibilities and weights one row for each of them. *)
Record dataset (V W P : Type) := mkD {
  d_time : Q; d_int : Q; d_bl : list (Z * Z); d_vis : list (list V); d_wgt : option (list (list W)); d_pol : Z; d_src : source P }.
Arguments mkD {V W P}. Arguments d_time {V W P}. Arguments d_int {V W P}. Arguments d_bl {V W P}. Arguments d_vis {V W P}.
Arguments d_wgt {V W P}. Arguments d_pol {V W P}. Arguments d_src {V W P}.

(** _Frequency (fitsidi.py 107-118): offset, channel width, bandwidth *)
Record band := mkB { b_off : Q; b_width : Q; b_total : Q }.
(** An entry of self.array (fitsidi.py 466): antennas are stand numbers with positions. *)
Record geometry (X : Type) := mkG { g_ants : list (Z * X); g_map : list (Z * Z); g_enable : bool }.
Arguments mkG {X}. Arguments g_ants {X}. Arguments g_map {X}. Arguments g_enable {X}.

(** The attributes of a writer (fitsidi.py 222-246); nAnt is the number of antennas of the array. *)
Record writer (V W P X : Type) := mkWr {
  w_kind : kind; w_mode : string; w_stokes : list Z; w_nstokes : Z;
  w_nchan : Z; w_ref : Q; w_width : Q; w_freq : list band; w_array : list (geometry X); w_data : list (dataset V W P) }.
Arguments mkWr {V W P X}. Arguments w_kind {V W P X}. Arguments w_mode {V W P X}. Arguments w_stokes {V W P X}. Arguments w_nstokes {V W P X}.
Arguments w_nchan {V W P X}. Arguments w_ref {V W P X}. Arguments w_width {V W P X}. Arguments w_freq {V W P X}. Arguments w_array {V W P X}. Arguments w_data {V W P X}.

(** The tables of a file.  ARRAY_GEOMETRY: ANNAME, STABXYZ, NOSTA.  NOSTA_MAPPER:
    ANNAME, NOSTA, NOACT.  SOURCE: SOURCE (16 characters) and coordinates; the
    SOURCE_IDs count from 1.  FREQUENCY: BANDFREQ and CH_WIDTH. *)
Record uvdata (V W U : Type) := mkUV {
  u_bl : list Z; u_date : list Q; u_time : list Q; u_int : list Q; u_uvw : list U; u_src : list Z; u_wgt : list (list W); u_flux : list (list V) }.
Arguments mkUV {V W U}. Arguments u_bl {V W U}. Arguments u_date {V W U}. Arguments u_time {V W U}. Arguments u_int {V W U}.
Arguments u_uvw {V W U}. Arguments u_src {V W U}. Arguments u_wgt {V W U}. Arguments u_flux {V W U}.
Record fits (V W U P X : Type) := mkF {
  f_type : string; f_ag : list (str * X * Z); f_map : option (list (str * Z * Z)); f_src : list (str * P);
  f_bands : list (Q * Q); f_ref : Q; f_nchan : Z; f_nstk : Z; f_stk1 : Z; f_cdelt : Z; f_uv : uvdata V W U }.
Arguments mkF {V W U P X}. Arguments f_type {V W U P X}. Arguments f_ag {V W U P X}. Arguments f_map {V W U P X}. Arguments f_src {V W U P X}.
Arguments f_bands {V W U P X}. Arguments f_ref {V W U P X}. Arguments f_nchan {V W U P X}. Arguments f_nstk {V W U P X}. Arguments f_stk1 {V W U P X}.
Arguments f_cdelt {V W U P X}. Arguments f_uv {V W U P X}.

Section Writer.
Context {V W U P X : Type} (E : sky V W U P).
Notation writer := (writer V W P X).
Notation dataset := (dataset V W P).

(** __init__ (fitsidi.py 222-246), set_observer (fitsidi.py 304-314) *)
Definition new_writer (k : kind) : writer := mkWr k "ZA" [] 0 0 0%Q 0%Q [] [] [].
Definition set_mode (w : writer) (m : string) : writer :=
  mkWr (w_kind w) m (w_stokes w) (w_nstokes w) (w_nchan w) (w_ref w) (w_width w) (w_freq w) (w_array w) (w_data w).
Definition with_stokes (w : writer) (l : list Z) (n : Z) : writer :=
  mkWr (w_kind w) (w_mode w) l n (w_nchan w) (w_ref w) (w_width w) (w_freq w) (w_array w) (w_data w).
Definition with_freq (w : writer) (n : Z) (r wd : Q) (f : list band) : writer :=
  mkWr (w_kind w) (w_mode w) (w_stokes w) (w_nstokes w) n r wd f (w_array w) (w_data w).
Definition with_array (w : writer) (a : list (geometry X)) : writer :=
  mkWr (w_kind w) (w_mode w) (w_stokes w) (w_nstokes w) (w_nchan w) (w_ref w) (w_width w) (w_freq w) a (w_data w).
Definition with_data (w : writer) (d : list dataset) : writer :=
  mkWr (w_kind w) (w_mode w) (w_stokes w) (w_nstokes w) (w_nchan w) (w_ref w) (w_width w) (w_freq w) (w_array w) d.

(** set_stokes (fitsidi.py 255-274) *)
Fixpoint add_stokes (have : list Z) (l : list polarization) : list Z * res unit :=
  match l with
  | [] => (have, Ok tt)
  | p :: l' =>
    match code_of p with
    | Raise e => (have, Raise e)
    | Ok c => add_stokes (if inb c have then have else have ++ [c]) l'
    end
  end.
Fixpoint insert_z (x : Z) (l : list Z) : list Z :=
  match l with [] => [x] | y :: l' => if x <=? y then x :: l else y :: insert_z x l' end.
Fixpoint sort_z (l : list Z) : list Z := match l with [] => [] | x :: l' => insert_z x (sort_z l') end.
Definition set_stokes (w : writer) (pols : list polarization) : writer * res unit :=
  let (l, r) := add_stokes (w_stokes w) pols in
  match r with
  | Raise e => (with_stokes w l (w_nstokes w), Raise e)
  | Ok _ =>
    let l := sort_z l in
    match l with
    | [] => (with_stokes w l (w_nstokes w), Raise IndexError)
    | c :: _ => let l := if c <? 0 then rev l else l in (with_stokes w l (zlen l), Ok tt)
    end
  end.

(** set_frequency (fitsidi.py 276-294), in exact arithmetic *)
Definition set_frequency (w : writer) (freq : list Q) : writer * res unit :=
  match freq with
  | [] => if w_nchan w =? 0 then (w, Raise IndexError) else (w, Raise AssertionError)
  | f0 :: _ =>
    let total := Qabs (last freq 0 - f0)%Q in
    if w_nchan w =? 0 then
      match freq with
      | _ :: f1 :: _ =>
        let wd := Qabs (f1 - f0)%Q in (with_freq w (zlen freq) f0 wd (w_freq w ++ [mkB 0 wd total]), Ok tt)
      | _ => (with_freq w (zlen freq) f0 (w_width w) (w_freq w), Raise IndexError)
      end
    else if negb (zlen freq =? w_nchan w) then (w, Raise AssertionError)
    else (with_freq w (w_nchan w) (w_ref w) (w_width w) (w_freq w ++ [mkB (f0 - w_ref w) (w_width w) total]), Ok tt)
  end.

(** set_geometry (fitsidi.py 412-466).  The antennas are stand numbers with
    positions; a call for a second array is not modelled. *)
Fixpoint build_mapper (enable : bool) (i : Z) (stands : list Z) (m : list (Z * Z)) : list (Z * Z) :=
  match stands with [] => m | s :: l => build_mapper enable (i + 1) l (dset m s (if enable then i + 1 else s)) end.
Definition set_geometry (w : writer) (antennas : list (Z * X)) : writer * res unit :=
  if max_ants (w_kind w) <? zlen antennas then (w, Raise RuntimeError) else
  match antennas with
  | [] => (w, Raise ValueError)
  | _ =>
    let stands := map fst antennas in
    let enable := max_ants (w_kind w) <? fold_right Z.max 0 stands in
    (with_array w (w_array w ++ [mkG antennas (build_mapper enable 0 stands []) enable]), Ok tt)
  end.

(** add_data_set (fitsidi.py 334-364); the time is a TAI MJD *)
Definition add_data_set (w : writer) (t int : Q) (bl : list (Z * Z)) (vis : list (list V)) (wgt : option (list (list W))) (pol : polarization) (src : source P) : writer * res unit :=
  match code_of pol with
  | Raise e => (w, Raise e)
  | Ok c => (with_data w (w_data w ++ [mkD t int bl vis wgt c src]), Ok tt)
  end.

(** self.data.sort() with __lt__ of _UVData (fitsidi.py 154-160, 509) *)
Definition ds_ltb (a b : dataset) : bool :=
  match Qcompare (d_time a) (d_time b) with Lt => true | Gt => false | Eq => Z.abs (d_pol a) <? Z.abs (d_pol b) end.
Fixpoint insert_ds (x : dataset) (l : list dataset) : list dataset :=
  match l with [] => [x] | y :: l' => if ds_ltb y x then y :: insert_ds x l' else x :: l end.
Fixpoint sort_ds (l : list dataset) : list dataset := match l with [] => [] | x :: l' => insert_ds x (sort_ds l') end.

(** _write_geometry_hdu, _write_mapper_hdu (fitsidi.py 599-693, 1270-1292) *)
Definition clip (n : nat) (s : str) : str := firstn n s.
Definition write_geometry (k : kind) (g : geometry X) : res (list (str * X * Z) * option (list (str * Z * Z))) :=
  bind (collect (map (fun a => bind (dget (g_map g) (fst a)) (fun n => Ok (clip 8 (get_name k (fst a)), snd a, n))) (g_ants g))) (fun ag =>
  if g_enable g then
    bind (collect (map (fun a => bind (dget (g_map g) (fst a)) (fun n => Ok (clip 8 (get_name k (fst a)), n, fst a))) (g_ants g))) (fun m => Ok (ag, Some m))
  else Ok (ag, None)).
(** read_array_mapper (fitsidi.py 1320-1342) *)
Definition read_array_mapper (m : option (list (str * Z * Z))) : option (list (Z * Z)) :=
  match m with None => None | Some l => Some (fold_left (fun d r => dset d (snd r) (snd (fst r))) l []) end.

(** _write_source_hdu (fitsidi.py 860-928) *)
Definition src_name (s : source P) (t : Q) : str := match s with Zenith => zenith_name E t | Body n _ => n end.
Definition src_pos (s : source P) (t : Q) : P := match s with Zenith => zenith_pos E t | Body _ p => p end.
Definition curr_name (s : source P) : str := match s with Zenith => [122] | Body n _ => n end.
Fixpoint source_table (stk0 : Z) (l : list dataset) (tbl : list (str * P)) : list (str * P) :=
  match l with
  | [] => tbl
  | d :: l' =>
    source_table stk0 l'
      (if (d_pol d =? stk0) && negb (existsb (fun r => str_eqb (fst r) (curr_name (d_src d))) tbl)
       then tbl ++ [(src_name (d_src d) (d_time d), src_pos (d_src d) (d_time d))] else tbl)
  end.

(** The variables of the loop of _write_uvdata_hdu (fitsidi.py 1055-1162) that
    may not be set yet: order, baselineMapped, and matrix with weights. *)
Record loop := mkL { l_order : option (list Z); l_mapped : option (list Z); l_mat : option (list (list V) * list (list W)); l_uv : uvdata V W U }.

(** mapper is None or a dictionary (fitsidi.py 172-175, 1121-1124) *)
Definition mapped (m : option (list (Z * Z))) (s : Z) : res Z := match m with None => Ok s | Some d => dget d s end.
Definition pack (m : option (list (Z * Z))) (shift : Z) (b : Z * Z) : res Z :=
  bind (mapped m (fst b)) (fun s1 => bind (mapped m (snd b)) (fun s2 => Ok (merge_baseline s1 s2 shift))).
(** argsort (fitsidi.py 169-179).  Numbers packed into more than 31 bits and
    the order numpy gives to equal numbers are not modelled. *)
Definition argsort (m : option (list (Z * Z))) (shift : Z) (bl : list (Z * Z)) : res (list Z) :=
  bind (collect (map (pack m shift) bl)) (fun l => Ok (map snd (sort_keys (enumerate_from 0 l)))).

(** a[i::n] = vals for a row, the values being as many as the places *)
Fixpoint set_stride {A} (i n : nat) (row vals : list A) : list A :=
  match row, vals with
  | [], _ => [] | _, [] => row
  | x :: row', v :: vals' => match i with O => v :: set_stride (Nat.pred n) n row' vals' | S i' => x :: set_stride i' n row' vals end
  end.
Fixpoint zip_with {A B C} (f : A -> B -> C) (a : list A) (b : list B) : list C :=
  match a, b with x :: a', y :: b' => f x y :: zip_with f a' b' | _, _ => [] end.
(** matrix[:,i::n] = a, where the rows of the matrix have n*c elements *)
Definition set_columns {A} (i n c : Z) (m a : list (list A)) : res (list (list A)) :=
  bind (spread (zlen m) a) (fun a =>
  bind (collect (map (spread c) a)) (fun a =>
  Ok (zip_with (set_stride (Z.to_nat i) (Z.to_nat n)) m a))).

(** One pass of the loop (fitsidi.py 1055-1162).  [cols] is nChan*nBand.  A
    matrix that is set to zero again is the same as a new one. *)
Definition uv_pass (m : option (list (Z * Z))) (shift : Z) (stokes : list Z) (cols : Z) (tbl : list (str * P)) (st : loop) (d : dataset) : res loop :=
  let nst := zlen stokes in
  let anew := bind (argsort m shift (d_bl d)) (fun o => Ok (o, @None (list Z))) in
  bind (match l_order st with
        | Some o => if zlen (d_vis d) =? zlen o then Ok (o, l_mapped st) else anew
        | None => anew
        end) (fun '(order, mp) =>
  bind (py_index stokes 0) (fun stk0 =>
  bind (if d_pol d =? stk0 then
          let t := d_time d in let n := zlen (d_bl d) in let same {A} (x : A) := repeat x (Z.to_nat n) in
          bind (list_index str_eqb (src_name (d_src d) t) (map fst tbl)) (fun k =>
          bind (match d_bl d with [] => Raise IndexError | bl => Ok (map (uvw E (d_src d) t) bl) end) (fun uvws =>
          bind (match mp with
                | Some l => Ok l
                | None => bind (take (d_bl d) order) (fun bl => collect (map (pack m shift) bl))
                end) (fun mp =>
          bind (take uvws order) (fun uvws =>
          let u := l_uv st in
          Ok (Some mp,
              Some (map (fun _ => repeat (v0 E) (Z.to_nat (nst * cols))) order, map (fun _ => repeat (w1 E) (Z.to_nat (nst * cols))) order),
              mkUV (u_bl u ++ mp) (u_date u ++ same (day0 E t)) (u_time u ++ same (utcjd E t - day0 E t)%Q) (u_int u ++ same (q32 E (d_int d)))
                   (u_uvw u ++ map (u32 E) uvws) (u_src u ++ same (k + 1)) (u_wgt u) (u_flux u))))))
        else Ok (mp, l_mat st, l_uv st)) (fun '(mp, mat, u) =>
  bind (take (d_vis d) order) (fun vis =>
  match mat with
  | None => Raise NameError
  | Some (mv, mw) =>
    bind (list_index Z.eqb (d_pol d) stokes) (fun i =>
    bind (set_columns i nst cols mv (map (map (fun v => v32 E (conj E v))) vis)) (fun mv =>
    bind (match d_wgt d with
          | None => Ok mw
          | Some wg => bind (take wg order) (fun wg => set_columns i nst cols mw (map (map (w32 E)) wg))
          end) (fun mw =>
    let u := if d_pol d =? last stokes 0
             then mkUV (u_bl u) (u_date u) (u_time u) (u_int u) (u_uvw u) (u_src u) (u_wgt u ++ mw) (u_flux u ++ mv)
             else u in
    Ok (mkL (Some order) mp (Some (mv, mw)) u))))
  end)))).
Fixpoint uv_loop (pass : loop -> dataset -> res loop) (l : list dataset) (st : loop) : res loop :=
  match l with [] => Ok st | d :: l' => bind (pass st d) (uv_loop pass l') end.

(** write (fitsidi.py 492-517).  The data are taken off the list one by one, so the
    writer is as given here when nothing is raised.  The concatenation of no matrices at all is a ValueError. *)
Definition write (w : writer) : writer * res (fits V W U P X) :=
  if w_nstokes w =? 0 then (w, Raise RuntimeError) else
  if zlen (w_freq w) =? 0 then (w, Raise RuntimeError) else
  match w_array w with
  | [] => (w, Raise RuntimeError)
  | g :: _ =>
    if zlen (w_data w) =? 0 then (w, Raise RuntimeError) else
    let data := sort_ds (w_data w) in
    (with_data w [],
     bind (write_geometry (w_kind w) g) (fun '(ag, m) =>
     bind (py_index (w_stokes w) 0) (fun stk0 =>
     let tbl := source_table stk0 data [] in
     let pass := uv_pass (read_array_mapper m) (bit_shift (w_kind w)) (w_stokes w) (w_nchan w * zlen (w_freq w)) tbl in
     bind (uv_loop pass data (mkL None None None (mkUV [] [] [] [] [] [] [] []))) (fun st =>
     if zlen (filter (fun d => d_pol d =? last (w_stokes w) 0) data) =? 0 then Raise ValueError else
     Ok (mkF (lwatype (w_kind w) ++ w_mode w)%string ag m (map (fun r => (clip 16 (fst r), snd r)) tbl)
             (map (fun b => (b_off b, q32 E (b_width b))) (w_freq w)) (w_ref w) (w_nchan w)
             (w_nstokes w) stk0 (if stk0 <? 0 then -1 else 1) (l_uv st))))))
  end.
End Writer.

(** ** The reader *)
Section Reader.
Context {V W U P X : Type} (E : sky V W U P).

(** _annameRE (imaging/utils.py 87): the last one to three digits of a name *)
Fixpoint lead_digits (n : nat) (s : str) : str :=
  match n, s with S k, c :: s' => if is_digit c then c :: lead_digits k s' else [] | _, _ => [] end.
Definition stand_of_name (s : str) : option Z := parse_digits false 0 (rev (lead_digits 3 (rev s))).
Fixpoint all_stands (l : list str) : option (list Z) :=
  match l with
  | [] => Some []
  | s :: l' => match stand_of_name s, all_stands l' with Some k, Some r => Some (k :: r) | _, _ => None end
  end.

(** np.unique *)
Fixpoint insert_unique (x : Q) (l : list Q) : list Q :=
  match l with [] => [x] | y :: l' => match Qcompare x y with Lt => x :: l | Eq => l | Gt => y :: insert_unique x l' end end.
Definition unique (l : list Q) : list Q := fold_right insert_unique [] l.
Fixpoint unique_z (l : list Z) : list Z := match l with [] => [] | x :: l' => x :: filter (fun y => negb (y =? x)) (unique_z l') end.

(** What __init__ keeps (imaging/utils.py 241-368): extended, stand_map, stands,
    the antennas, pols, freq and _times. *)
Record reader := mkR {
  r_extended : bool; r_map : list (Z * Z); r_stands : list Z; r_ants : list (Z * X); r_pols : list Z; r_freq : list Q; r_times : list Q }.

Definition starts_with (p s : string) : bool := String.eqb (substring 0 (String.length p) s) p.
Definition jds (u : uvdata V W U) : list Q := zip_with Qplus (u_date u) (u_time u).
Definition open_idi (f : fits V W U P X) : reader :=
  let '(nosta, noact, anname) :=
    match f_map f with
    | Some m => (map (fun r => snd (fst r)) m, map snd m, map (fun r => fst (fst r)) m)
    | None => (map snd (f_ag f), map snd (f_ag f), map (fun r => fst (fst r)) (f_ag f))
    end in
  let noact := match all_stands anname with Some l => l | None => noact end in
  let antennas := zip_with (fun r act => (act, snd (fst r))) (f_ag f) noact in
  mkR (starts_with "EXTENDED-" (f_type f) || starts_with "IDI-EXTENDED-" (f_type f))
      (fold_left (fun d p => dset d (fst p) (snd p)) (combine nosta noact) [])
      (map snd (combine nosta noact))
      (flat_map (fun s => match find (fun a => fst a =? s) antennas with Some a => [a] | None => [] end) (map snd (combine nosta noact)))
      (map (fun k => f_stk1 f + f_cdelt f * k) (range 0 (f_nstk f)))
      (flat_map (fun b => map (fun k => (inject_Z k * snd b + (f_ref f + fst b))%Q) (range 0 (f_nchan f))) (f_bands f))
      (unique (jds (f_uv f))).

(** What get_data_set returns for one integration, before it is sorted: the
    arguments of VisibilityDataSet and PolarizationDataSet.  The phase center
    is a name and coordinates; u, v and w are in seconds (the code multiplies
    them by the frequencies); [s_int] are the values whose median is taken. *)
Record dataset_read := mkS {
  s_jd : Q; s_freq : list Q; s_bl : list (Z * Z); s_uvw : list U; s_center : str * P; s_int : list Q;
  s_pols : list (string * list (list V) * list (list W)) }.

(** Lines 500-516: the rows that are kept and their pairs of antennas *)
Definition unpack (extended : bool) (b : Z) : Z * Z :=
  if extended then (Z.land (Z.shiftr b 16) 65535, Z.land b 65535) else (Z.land (Z.shiftr b 8) 255, Z.land b 255).
Fixpoint keep_rows (r : reader) (include_auto : bool) (k : Z) (bl : list Z) : res (list ((Z * Z) * Z)) :=
  match bl with
  | [] => Ok []
  | b :: bl' =>
    let (p, q) := unpack (r_extended r) b in
    bind (dget (r_map r) p) (fun i => bind (dget (r_map r) q) (fun j =>
    if (i =? j) && negb include_auto then keep_rows r include_auto (k + 1) bl' else
    match list_index Z.eqb i (r_stands r), list_index Z.eqb j (r_stands r) with
    | Ok ri, Ok rj => bind (keep_rows r include_auto (k + 1) bl') (fun l => Ok (((ri, rj), k) :: l))
    | _, _ => Raise IndexError
    end))
  end.

(** vis[b,:,p] for rows of nFreq*nStk values *)
Definition channels_of {A} (d : A) (nfreq nstk p : Z) (row : list A) : list A := map (fun c => znth d (c * nstk + p) row) (range 0 nfreq).

(** get_data_set for one integration (imaging/utils.py 398-533); the weights are
    a column of their own, and those copied behind them are never read. *)
Definition get_data_set (r : reader) (f : fits V W U P X) (set : Z) (include_auto : bool) : res dataset_read :=
  let u := f_uv f in
  bind (py_index (r_times r) (set - 1)) (fun target =>
  let selection := where_ (map (fun q => Qeq_bool q target) (jds u)) in
  bind (take (u_src u) selection) (fun ids =>
  bind (take (u_bl u) selection) (fun bl =>
  bind (take (jds u) selection) (fun jd =>
  bind (take (u_int u) selection) (fun ac =>
  bind (take (u_uvw u) selection) (fun uv =>
  bind (take (u_flux u) selection) (fun vis =>
  bind (take (u_wgt u) selection) (fun wgt =>
  bind (keep_rows r include_auto 0 bl) (fun kept =>
  let select := map snd kept in
  bind (match unique_z ids with
        | [id] => match py_index (f_src f) (id - 1) with Ok c => Ok c | Raise _ => Raise AttributeError end
        | _ => Raise AttributeError
        end) (fun center =>
  bind (take uv select) (fun uv =>
  bind (take vis select) (fun vis =>
  bind (take wgt select) (fun wgt =>
  bind (py_index jd 0) (fun jd0 =>
  let nfreq := zlen (r_freq r) in
  let nstk := zlen (r_pols r) in
  bind (collect (map (fun pl => bind (numeric_stokes (snd pl)) (fun n =>
                   Ok (n, map (fun row => map (conj E) (channels_of (v0 E) nfreq nstk (fst pl) row)) vis, map (channels_of (w1 E) nfreq nstk (fst pl)) wgt)))
                 (combine (range 0 nstk) (r_pols r)))) (fun pols =>
  Ok (mkS jd0 (r_freq r) (map fst kept) uv center ac pols)))))))))))))))).
End Reader.
