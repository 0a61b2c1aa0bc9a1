(** Model of the UVFITS writer Uv of writer/uvfits.py and of the reader for its
    files, CorrelatedDataUV of imaging/utils.py.  What the writer shares with
    those of FITS IDI files (WriterBase of writer/fitsidi.py: set_stokes,
    set_frequency, add_data_set, the order of the data sets) is in M_Idi. *)
From Coq Require Import String.
From Coq Require Import List ZArith QArith Qabs Bool.
From Verif Require Export M_Idi.
Import ListNotations.
Open Scope Z_scope.

(** The limits and the names of set_geometry (uvfits.py 97-150), which is the
    same as that of the FITS IDI writers otherwise: at most 2047 antennas, names
    LWA%03i (fitsidi.py 104-105), and the default shift of argsort
    (fitsidi.py 86-87, 169-179; uvfits.py 263). *)
Definition Uv : kind := mkKind 2047 16 [76; 87; 65] 3 "".

(** The parameters and the data of the random groups (uvfits.py 352-363): BASELINE,
    DATE, _DATE, INTTIM, UU/VV/WW, SOURCE and DATA *)
Record groups (V U : Type) := mkGr {
  gr_bl : list Z; gr_date : list Q; gr_day : list Q; gr_int : list Q; gr_uvw : list U; gr_src : list Z; gr_vis : list (list V) }.
Arguments mkGr {V U}. Arguments gr_bl {V U}. Arguments gr_date {V U}. Arguments gr_day {V U}. Arguments gr_int {V U}. Arguments gr_uvw {V U}.
Arguments gr_src {V U}. Arguments gr_vis {V U}.
(** A file: AIPS AN (ANNAME, STABXYZ, NOSTA), AIPS SU (SOURCE of 16 characters and
    coordinates, with ID. NO. counting from 1), the axes, and the groups *)
Record ufits (V U P X : Type) := mkUF {
  uf_an : list (str * X * Z); uf_src : list (str * P); uf_width : Q; uf_ref : Q; uf_nchan : Z; uf_nstk : Z; uf_stk1 : Z; uf_cdelt : Z; uf_gr : groups V U }.
Arguments mkUF {V U P X}. Arguments uf_an {V U P X}. Arguments uf_src {V U P X}. Arguments uf_width {V U P X}. Arguments uf_ref {V U P X}.
Arguments uf_nchan {V U P X}. Arguments uf_nstk {V U P X}. Arguments uf_stk1 {V U P X}. Arguments uf_cdelt {V U P X}. Arguments uf_gr {V U P X}.

Section UvWriter.
Context {V W U P X : Type} (E : sky V W U P).
Notation writer := (writer V W P X).
Notation dataset := (dataset V W P).
(** [par z x]: what a file returns for the value x of a parameter that is
    written in single precision with the zero point z (astropy, not modelled) *)
Variable par : Q -> Q -> Q.

(** The variables of the loop of _write_primary_hdu (uvfits.py 258-350) that may
    not be set yet: order, baselineMapped, matrix and utcR *)
Record uloop := mkUL { ul_order : option (list Z); ul_mapped : option (list Z); ul_mat : option (list (list V)); ul_ref : option Q; ul_gr : groups V U }.

(** mapper and merge_baseline (uvfits.py 38-50, 318-327) *)
Definition pack_uv (m : option (list (Z * Z))) (b : Z * Z) : res Z :=
  bind (mapped m (fst b)) (fun s1 => bind (mapped m (snd b)) (fun s2 => Ok (merge_uvfits s1 s2))).

(** One pass of the loop (uvfits.py 258-350).  [cols] is nChan.  A matrix that is
    set to zero again is the same as a new one, and the names of the zenith
    are those of the table of sources (uvfits.py 287-288, 683-684). *)
Definition uvf_pass (m : option (list (Z * Z))) (stokes : list Z) (cols : Z) (tbl : list (str * P)) (st : uloop) (d : dataset) : res uloop :=
  let nst := zlen stokes in
  let anew := bind (argsort m (bit_shift Uv) (d_bl d)) (fun o => Ok (o, @None (list Z))) in
  bind (match ul_order st with
        | Some o => if zlen (d_vis d) =? zlen o then Ok (o, ul_mapped st) else anew
        | None => anew
        end) (fun '(order, mp) =>
  bind (py_index stokes 0) (fun stk0 =>
  bind (if d_pol d =? stk0 then
          let t := d_time d in let n := zlen (d_bl d) in let same {A} (x : A) := repeat x (Z.to_nat n) in
          let ref := match ul_ref st with Some q => q | None => day0 E t end in
          bind (list_index str_eqb (src_name E (d_src d) t) (map fst tbl)) (fun k =>
          bind (match d_bl d with [] => Raise IndexError | bl => Ok (map (uvw E (d_src d) t) bl) end) (fun uvws =>
          bind (match mp with
                | Some l => Ok l
                | None => bind (take (d_bl d) order) (fun bl => collect (map (pack_uv m) bl))
                end) (fun mp =>
          bind (take uvws order) (fun uvws =>
          let g := ul_gr st in
          Ok (Some mp, Some (map (fun _ => repeat (v0 E) (Z.to_nat (nst * cols))) order), Some ref,
              mkGr (gr_bl g ++ mp) (gr_date g ++ same (day0 E t - ref)%Q) (gr_day g ++ same (utcjd E t - day0 E t)%Q) (gr_int g ++ same (d_int d))
                   (gr_uvw g ++ map (u32 E) uvws) (gr_src g ++ same (k + 1)) (gr_vis g))))))
        else Ok (mp, ul_mat st, ul_ref st, ul_gr st)) (fun '(mp, mat, ref, g) =>
  bind (take (d_vis d) order) (fun vis =>
  match mat with
  | None => Raise NameError
  | Some mv =>
    bind (list_index Z.eqb (d_pol d) stokes) (fun i =>
    bind (set_columns i nst cols mv (map (map (v32 E)) vis)) (fun mv =>
    let g := if d_pol d =? last stokes 0
             then mkGr (gr_bl g) (gr_date g) (gr_day g) (gr_int g) (gr_uvw g) (gr_src g) (gr_vis g ++ mv)
             else g in
    Ok (mkUL (Some order) mp (Some mv) ref g)))
  end)))).
Fixpoint uvf_loop (pass : uloop -> dataset -> res uloop) (l : list dataset) (st : uloop) : res uloop :=
  match l with [] => Ok st | d :: l' => bind (pass st d) (uvf_loop pass l') end.

(** GroupData (uvfits.py 352-363): the parameters are as many as the groups, and
    DATE has the zero point utcR.  (One value for all groups is not modelled.) *)
Definition store (st : uloop) : res (groups V U) :=
  let g := ul_gr st in
  match gr_vis g, ul_ref st with
  | [], _ => Raise ValueError
  | _, None => Raise NameError
  | _, Some ref =>
    if negb (zlen (gr_bl g) =? zlen (gr_vis g)) then Raise ValueError else
    Ok (mkGr (gr_bl g) (map (par ref) (gr_date g)) (map (par 0) (gr_day g)) (map (par 0) (gr_int g)) (gr_uvw g) (gr_src g) (gr_vis g))
  end.

(** write (uvfits.py 176-206).  The table of the stand numbers, which is not
    read again, is not kept. *)
Definition write_uv (w : writer) : writer * res (ufits V U P X) :=
  if w_nstokes w =? 0 then (w, Raise RuntimeError) else
  if zlen (w_freq w) =? 0 then (w, Raise RuntimeError) else
  if 1 <? zlen (w_freq w) then (w, Raise RuntimeError) else
  match w_array w, w_freq w with
  | [], _ => (w, Raise RuntimeError)
  | _, [] => (w, Raise RuntimeError)
  | g :: _, b :: _ =>
    if zlen (w_data w) =? 0 then (w, Raise RuntimeError) else
    let data := sort_ds (w_data w) in
    match
     (bind (write_geometry (w_kind w) g) (fun '(an, m) =>
      bind (py_index (w_stokes w) 0) (fun stk0 =>
      let tbl := source_table E stk0 data [] in
      bind (uvf_loop (uvf_pass (read_array_mapper m) (w_stokes w) (w_nchan w) tbl) data (mkUL None None None None (mkGr [] [] [] [] [] [] []))) (fun st =>
      bind (store st) (fun gr =>
      Ok (mkUF an (map (fun r => (clip 16 (fst r), snd r)) tbl) (b_width b) (w_ref w) (w_nchan w) (w_nstokes w) stk0 (if stk0 <? 0 then -1 else 1) gr))))))
    with
    | Ok f => (with_data w [], Ok f)
    | Raise e => (with_data w data, Raise e)
    end
  end.
End UvWriter.

Section UvReader.
Context {V W U P X : Type} (E : sky V W U P).

Definition jds_uv (g : groups V U) : list Q := zip_with Qplus (gr_date g) (gr_day g).
(** What __init__ keeps (imaging/utils.py 568-659): stand_map, stands, antennas,
    pols, freq and _times.  There is no extended kind of these files. *)
Definition open_uv (f : ufits V U P X) : @reader X :=
  let nosta := map snd (uf_an f) in
  let noact := match all_stands (map (fun r => fst (fst r)) (uf_an f)) with Some l => l | None => nosta end in
  let antennas := zip_with (fun r act => (act, snd (fst r))) (uf_an f) noact in
  mkR false
      (fold_left (fun d p => dset d (fst p) (snd p)) (combine nosta noact) [])
      (map snd (combine nosta noact))
      (flat_map (fun s => match find (fun a => fst a =? s) antennas with Some a => [a] | None => [] end) (map snd (combine nosta noact)))
      (map (fun k => uf_stk1 f + uf_cdelt f * k) (range 0 (uf_nstk f)))
      (map (fun k => (inject_Z k * uf_width f + uf_ref f)%Q) (range 0 (uf_nchan f)))
      (unique (jds_uv (uf_gr f))).

(** The rows that are kept and their pairs of antennas (imaging/utils.py 754-771) *)
Fixpoint keep_groups (r : @reader X) (include_auto : bool) (k : Z) (bl : list Z) : res (list ((Z * Z) * Z)) :=
  match bl with
  | [] => Ok []
  | b :: bl' =>
    let (p, q) := split_uvfits b in
    bind (dget (r_map r) p) (fun i => bind (dget (r_map r) q) (fun j =>
    if (i =? j) && negb include_auto then keep_groups r include_auto (k + 1) bl' else
    match list_index Z.eqb i (r_stands r), list_index Z.eqb j (r_stands r) with
    | Ok ri, Ok rj => bind (keep_groups r include_auto (k + 1) bl') (fun l => Ok (((ri, rj), k) :: l))
    | _, _ => Raise IndexError
    end))
  end.

(** get_data_set for one integration (imaging/utils.py 661-795), of a file
    without weights, before it is sorted *)
Definition get_data_set_uv (r : @reader X) (f : ufits V U P X) (set : Z) (include_auto : bool) : res (@dataset_read V W U P) :=
  let g := uf_gr f in
  bind (py_index (r_times r) (set - 1)) (fun target =>
  let selection := where_ (map (fun q => Qeq_bool q target) (jds_uv g)) in
  bind (take (gr_src g) selection) (fun ids =>
  bind (take (gr_bl g) selection) (fun bl =>
  bind (take (jds_uv g) selection) (fun jd =>
  bind (take (gr_int g) selection) (fun ac =>
  bind (take (gr_uvw g) selection) (fun uv =>
  bind (take (gr_vis g) selection) (fun vis =>
  bind (keep_groups r include_auto 0 bl) (fun kept =>
  let select := map snd kept in
  bind (py_index jd 0) (fun jd0 =>
  bind (match unique_z ids with
        | [id] => match py_index (uf_src f) (id - 1) with Ok c => Ok c | Raise _ => Raise AttributeError end
        | _ => Raise AttributeError
        end) (fun center =>
  bind (take uv select) (fun uv =>
  bind (take vis select) (fun vis =>
  let nfreq := zlen (r_freq r) in
  let nstk := zlen (r_pols r) in
  bind (collect (map (fun pl => bind (numeric_stokes (snd pl)) (fun n =>
                   Ok (n, map (channels_of (v0 E) nfreq nstk (fst pl)) vis, map (fun _ => repeat (w1 E) (Z.to_nat nfreq)) vis)))
                 (combine (range 0 nstk) (r_pols r)))) (fun pols =>
  Ok (mkS jd0 (r_freq r) (map fst kept) uv center ac pols)))))))))))))).
End UvReader.
