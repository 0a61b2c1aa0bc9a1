(** Model of the spectrometer and correlator interface, lsl/correlator/fx.py, on top of the kernels of M_Corr.
    Numbers are exact.  A result of [None] means that the process is killed by an integer division by zero. *)
From Coq Require Import Ascii String List ZArith QArith Qcanon Bool.
From Verif Require Import LibList M_Py M_Base M_Corr.
Import ListNotations.
Open Scope Z_scope.

(** pol_to_pols (fx.py 50-66), after upper(). *)
Fixpoint pol_to_pols (pol : string) : res (list Z) :=
  match pol with
  | EmptyString => Ok []
  | String c pol => bind (if (Ascii.eqb c "X" || Ascii.eqb c "R" || Ascii.eqb c "x" || Ascii.eqb c "r")%char then Ok 0
                          else if (Ascii.eqb c "Y" || Ascii.eqb c "L" || Ascii.eqb c "y" || Ascii.eqb c "l")%char then Ok 1 else Raise RuntimeError)
      (fun p => bind (pol_to_pols pol) (fun l => Ok (p :: l)))
  end.
(** pol1, pol2 = pol_to_pols(pol) *)
Definition two_pols (pol : string) : res (Z * Z) := bind (pol_to_pols pol) (fun l => match l with [a; b] => Ok (a, b) | _ => Raise ValueError end).

(** np.fft.fftfreq(n, d) and np.fft.fftshift (numpy): the frequencies of the bins, and the upper half moved to the front. *)
Definition fftfreq (n : Z) (d : Qc) : list Qc := map (fun k => (qz k * (1 / (qz n * d)))%Qc) (range 0 ((n - 1) / 2 + 1) ++ range (- (n / 2)) 0).
Definition fftshift {A} (l : list A) : list A := let n := zlen l in zdrop (n - n / 2) l ++ ztake (n - n / 2) l.
(** freq (fx.py 93-116, 150-176, 235-257, 388-410) *)
Definition frequencies (cplx : bool) (LFFT : Z) (sample_rate central_freq : Qc) : list Qc :=
  let freq := fftfreq ((if cplx then 1 else 2) * LFFT) (1 / sample_rate) in
  ztake LFFT (if cplx then fftshift (map (fun f => (f + central_freq)%Qc) freq) else freq).

(** A two-dimensional array in memory, [n] samples in a row; what lies around it is [junk]. *)
Definition flat (n : Z) (rows : list (list C)) (junk : Z -> C) : Z -> C :=
  fun a => if (0 <=? a) && (a <? zlen rows * n) then znth c0 (a mod n) (znth [] (a / n) rows) else junk a.
(** An array with the given dimensions read from memory. *)
Definition cells {A} (rows cols a : Z) (m : mem A) : list (list A) := map (fun i => map (fun k => m (a + cols * i + k)) (range 0 cols)) (range 0 rows).
Definition PFB_NTAP : Z := 4.

Section Master.
(** The transform for real (true) or complex data of a given number of channels; the weights of the filter bank for a given total length. *)
Context (F : bool -> Z -> list C -> list C) (pfb_weights : Z -> Z -> Qc).
(** The length of a transform, the number of taps and the weights (spec.cpp 285-292, 410-417 and the same in the other files). *)
Definition fft_len (cplx : bool) (LFFT : Z) : Z := (if cplx then 1 else 2) * LFFT.
Definition taps_of (pfb : bool) : Z := if pfb then PFB_NTAP else 1.
Definition weights_of (pfb : bool) (L : Z) (window : option (Z -> Z -> Qc)) : option (Z -> Qc) :=
  if pfb then Some (pfb_weights (L * PFB_NTAP)) else option_map (fun w => w L) window.

(** SpecMaster (fx.py 78-130) with FPSD and PFBPSD (spec.cpp 244-347, 370-475).  [window] = None is null_window.  [n] is the number of
    samples in a row, [junk] the memory around the array, [order] the order of the parallel loop.  A negative number of transforms means
    that the loop over them is not entered. *)
Definition spec_master (n : Z) (signals : list (list C)) (cplx : bool) (LFFT : Z) (window : option (Z -> Z -> Qc)) (pfb : bool)
    (sample_rate central_freq : Qc) (clip_level : Z) (junk : Z -> C) (order : list Z) : option (res (list Qc * list (list (option Qc)))) :=
  if (match window with Some _ => true | None => false end) && pfb then Some (Raise RuntimeError) else
  let L := fft_len cplx LFFT in
  match count_ffts n 0 L 1 with
  | None => None
  | Some nFFT =>
    let m := compute_spec (F (negb cplx) LFFT) L (taps_of pfb) clip_level (weights_of pfb L window) n nFFT LFFT 1 cplx (flat n signals junk) order in
    Some (Ok (frequencies cplx LFFT sample_rate central_freq, cells (zlen signals) LFFT 0 m))
  end.

(** Antennas: polarization, stand number, the delay at a frequency (that of the cable less that of the geometry). *)
Record ant := mkA { a_pol : Z; a_stand : Z; a_delay : Qc -> Qc }.
(** [i for (i, a) in enumerate(antennas) if a.pol == p] *)
Definition index_of_pol (p : Z) (ants : list ant) : list Z := map fst (filter (fun q => a_pol (snd q) =? p) (combine (range 0 (zlen ants)) ants)).
Definition of_pol (p : Z) (ants : list ant) : list ant := filter (fun a => a_pol a =? p) ants.
(** signals[index] *)
Definition take_rows {A} (signals : list A) (idx : list Z) : res (list A) := collect (map (py_index signals) idx).

(** StokesMaster (fx.py 133-189) with FPSD and PFBPSD (stokes.cpp 300-440, 456-590). *)
Definition stokes_master (n : Z) (signals : list (list C)) (ants : list ant) (cplx : bool) (LFFT : Z) (window : option (Z -> Z -> Qc)) (pfb : bool)
    (sample_rate central_freq : Qc) (clip_level : Z) (junkX junkY : Z -> C) (order : list Z) : option (res (list Qc * list (list (list (option Qc))))) :=
  let idx1 := index_of_pol 0 ants in let idx2 := index_of_pol 1 ants in
  if negb (zlen idx1 =? zlen idx2) then Some (Raise RuntimeError) else
  if (match window with Some _ => true | None => false end) && pfb then Some (Raise RuntimeError) else
  match take_rows signals idx1, take_rows signals idx2 with
  | Raise e, _ => Some (Raise e) | Ok _, Raise e => Some (Raise e)
  | Ok rx, Ok ry =>
    let L := fft_len cplx LFFT in
    match count_ffts n 0 L 1 with
    | None => None
    | Some nFFT =>
      let nStand := zlen rx in
      let m := compute_stokes (F (negb cplx) LFFT) L (taps_of pfb) clip_level (weights_of pfb L window) n nFFT LFFT 1 nStand cplx
                 (flat n rx junkX) (flat n ry junkY) order in
      Some (Ok (frequencies cplx LFFT sample_rate central_freq, map (fun p => cells nStand LFFT (p * LFFT * nStand) m) (range 0 4)))
    end
  end.

(** ** Correlators.  [E x] is exp(2 pi i x); [norm] is 1/sqrt of the length of the transform; [rgain a1 a2 f] is 1/sqrt(gain1*gain2). *)
Context (E : Qc -> C) (norm : Z -> Qc) (rgain : ant -> ant -> Qc -> Qc).

(** min() of a column; the list is not empty. *)
Fixpoint qmin (x : Qc) (l : list Qc) : Qc := match l with [] => x | y :: l => qmin (if Qle_bool (this x) (this y) then x else y) l end.
(** The delay arrays (fx.py 284-306, 432-454): by row and channel; all delays are finite in the model. *)
Definition delays_of (freq : list Qc) (ants1 ants2 : list ant) : res ((Z -> Z -> Qc) * (Z -> Z -> Qc)) :=
  bind (collect (map (py_index ants2) (range 0 (zlen ants1)))) (fun ants2 =>
  match map (fun a => a_delay a (znth 0%Qc (zlen freq / 2) freq)) ants1, map (fun a => a_delay a (znth 0%Qc (zlen freq / 2) freq)) ants2 with
  | r1 :: l1, r2 :: l2 =>
    let m1 := qmin r1 l1 in let m2 := qmin r2 l2 in
    let minDelay := if Qle_bool (this m2) (this m1) then m2 else m1 in
    let row ants i j := match nth_error ants (Z.to_nat i) with Some a => (a_delay a (znth 0%Qc j freq) - minDelay)%Qc | None => 0%Qc end in
    Ok (row ants1, row ants2)
  | _, _ => Raise ValueError
  end).

(** FEngine and PFBEngine (core.cpp 334-500, 537-700): number of transforms, transforms, valid flags.  [rows] against the delays' rows. *)
Definition fengine (n : Z) (rows : list (list C)) (nDelay : Z) (delay : Z -> Z -> Qc) (freq : list Qc) (cplx : bool) (LFFT overlap : Z)
    (window : option (Z -> Z -> Qc)) (pfb : bool) (sample_rate : Qc) (clip_level : Z) (junk : Z -> C) (order : list Z) : option (res (Z * (mem C * mem Z))) :=
  if negb (zlen rows =? nDelay) then Some (Raise RuntimeError) else
  let L := fft_len cplx LFFT in
  let fifo := fifo_of LFFT sample_rate delay in
  match count_ffts n (fifo_max (zlen rows) fifo) L overlap with
  | None => None
  | Some nFFT =>
    if nFFT <? 0 then Some (Raise MemoryError) else
    let rot := rotator E (norm L) LFFT sample_rate (if cplx then Z.quot LFFT 2 else 0) (fun j => znth 0%Qc j freq) delay in
    Some (Ok (nFFT, compute_fengine (F (negb cplx) LFFT) L (taps_of pfb) clip_level (weights_of pfb L window) n nFFT LFFT overlap cplx
                      (flat n rows junk) fifo rot order))
  end.

(** Removing the auto-correlations (fx.py 327-334, 475-482, 585-592, 695-702): the positions of the baselines that stay. *)
Definition kept (ants1 ants2 : list ant) (include_auto : bool) : res (list Z) :=
  bind (get_baselines ants1 (Some ants2) true) (fun full =>
  Ok (if include_auto then range 0 (zlen full)
      else map fst (filter (fun q => negb (a_stand (fst (snd q)) =? a_stand (snd (snd q)))) (combine (range 0 (zlen full)) full)))).
Definition times (g : C) (o : option C) : option C := option_map (fun z => cmul z g) o.
(** baselines[bl] *)
Definition label (baselines : list (ant * ant)) (bl : Z) : res (ant * ant) := py_index baselines bl.

(** The orders in which the parallel loops run, and the memory around the arrays. *)
Record schedule := mkS { ord1 : list Z; ord2 : list Z; ordX : list Z; around1 : Z -> C; around2 : Z -> C }.

(** FXMaster (fx.py 192-350).  Returns the baselines, the frequencies and the visibilities. *)
Definition fx_master (n : Z) (signals : list (list C)) (ants : list ant) (cplx : bool) (LFFT overlap : Z) (include_auto : bool)
    (window : option (Z -> Z -> Qc)) (pfb : bool) (sample_rate central_freq : Qc) (pol : string) (gain_correct : bool) (clip_level : Z) (s : schedule) :
    option (res (list (ant * ant) * list Qc * list (list (option C)))) :=
  match two_pols pol with
  | Raise e => Some (Raise e)
  | Ok (pol1, pol2) =>
    let ants1 := of_pol pol1 ants in let idx1 := index_of_pol pol1 ants in
    let ants2 := of_pol pol2 ants in let idx2 := index_of_pol pol2 ants in
    let nStands := zlen ants1 in
    match get_baselines ants1 (Some ants2) include_auto with
    | Raise e => Some (Raise e)
    | Ok baselines =>
      let freq := frequencies cplx LFFT sample_rate central_freq in
      match delays_of freq ants1 ants2 with
      | Raise e => Some (Raise e)
      | Ok (delays1, delays2) =>
        if (match window with Some _ => true | None => false end) && pfb then Some (Raise RuntimeError) else
        match (if negb (zlen signals =? zlen idx1) then take_rows signals idx1 else Ok signals) with
        | Raise e => Some (Raise e)
        | Ok rows1 =>
          match fengine n rows1 nStands delays1 freq cplx LFFT overlap window pfb sample_rate clip_level (around1 s) (ord1 s) with
          | None => None
          | Some (Raise e) => Some (Raise e)
          | Some (Ok (nFFT1, (f1, v1))) =>
            match (if pol2 =? pol1 then Some (Ok (nStands, (nFFT1, (f1, v1)))) else
                   match take_rows signals idx2 with
                   | Raise e => Some (Raise e)
                   | Ok rows2 => match fengine n rows2 nStands delays2 freq cplx LFFT overlap window pfb sample_rate clip_level (around2 s) (ord2 s) with
                                 | None => None | Some (Raise e) => Some (Raise e) | Some (Ok x) => Some (Ok (zlen rows2, x)) end
                   end) with
            | None => None
            | Some (Raise e) => Some (Raise e)
            | Some (Ok (nStand2, (nFFT2, (f2, v2)))) =>
              if negb ((nStand2 =? nStands) && (nFFT2 =? nFFT1)) then Some (Raise RuntimeError) else
              let out := xengine2 nStands LFFT nFFT1 f1 f2 v1 v2 (ordX s) in
              match kept ants1 ants2 include_auto with
              | Raise e => Some (Raise e)
              | Ok keep =>
                let rows := map (fun b => map (fun k => out (b * LFFT + k)) (range 0 LFFT)) keep in
                match (if gain_correct
                       then collect (map (fun q => bind (label baselines (fst q)) (fun a =>
                              Ok (map (fun kv => times ((rgain (fst a) (snd a) (znth 0%Qc (fst kv) freq)), 0%Qc) (snd kv)) (combine (range 0 LFFT) (snd q)))))
                              (combine (range 0 (zlen rows)) rows))
                       else Ok rows) with
                | Raise e => Some (Raise e)
                | Ok rows => Some (Ok (baselines, freq, rows))
                end
              end
            end
          end
        end
      end
    end
  end.
(** FXStokes (fx.py 353-498).  XEngine3 (stokes.cpp 689-790) checks the dimensions as XEngine2 does.  Gain correction runs over
    range(output.shape[0]), which is 4, as the numbers of the baselines. *)
Definition four (nBL LFFT : Z) (keep : list Z) (out : mem (option C)) : list (list (list (option C))) :=
  map (fun p => map (fun b => map (fun k => out (p * nBL * LFFT + b * LFFT + k)) (range 0 LFFT)) keep) (range 0 4).
Definition fx_stokes (n : Z) (signals : list (list C)) (ants : list ant) (cplx : bool) (LFFT overlap : Z) (include_auto : bool)
    (window : option (Z -> Z -> Qc)) (pfb : bool) (sample_rate central_freq : Qc) (gain_correct : bool) (clip_level : Z) (s : schedule) :
    option (res (list (ant * ant) * list Qc * list (list (list (option C))))) :=
  let ants1 := of_pol 0 ants in let idx1 := index_of_pol 0 ants in
  let ants2 := of_pol 1 ants in let idx2 := index_of_pol 1 ants in
  let nStands := zlen ants1 in
  match get_baselines ants1 (Some ants2) include_auto with
  | Raise e => Some (Raise e)
  | Ok baselines =>
    let freq := frequencies cplx LFFT sample_rate central_freq in
    match delays_of freq ants1 ants2 with
    | Raise e => Some (Raise e)
    | Ok (delays1, delays2) =>
      if (match window with Some _ => true | None => false end) && pfb then Some (Raise RuntimeError) else
      match take_rows signals idx1 with
      | Raise e => Some (Raise e)
      | Ok rows1 =>
        match fengine n rows1 nStands delays1 freq cplx LFFT overlap window pfb sample_rate clip_level (around1 s) (ord1 s) with
        | None => None
        | Some (Raise e) => Some (Raise e)
        | Some (Ok (nFFT1, (f1, v1))) =>
          match take_rows signals idx2 with
          | Raise e => Some (Raise e)
          | Ok rows2 =>
            match fengine n rows2 nStands delays2 freq cplx LFFT overlap window pfb sample_rate clip_level (around2 s) (ord2 s) with
            | None => None
            | Some (Raise e) => Some (Raise e)
            | Some (Ok (nFFT2, (f2, v2))) =>
              if negb (nFFT2 =? nFFT1) then Some (Raise RuntimeError) else
              let out := xengine3 nStands LFFT nFFT1 f1 f2 v1 v2 (ordX s) in
              match kept ants1 ants2 include_auto with
              | Raise e => Some (Raise e)
              | Ok keep =>
                let vis := four (Z.quot ((nStands + 1) * nStands) 2) LFFT keep out in
                match (if gain_correct
                       then bind (collect (map (fun bl => bind (label baselines bl) (fun a => if bl <? zlen keep then Ok a else Raise IndexError)) (range 0 4))) (fun l =>
                            Ok (map (map (fun q => match nth_error l (Z.to_nat (fst q)) with
                                                   | Some a => map (fun kv => times ((rgain (fst a) (snd a) (znth 0%Qc (fst kv) freq)), 0%Qc) (snd kv)) (combine (range 0 LFFT) (snd q))
                                                   | None => snd q end))
                                    (map (fun rows => combine (range 0 (zlen rows)) rows) vis)))
                       else Ok vis) with
                | Raise e => Some (Raise e)
                | Ok vis => Some (Ok (baselines, freq, vis))
                end
              end
            end
          end
        end
      end
    end
  end.

(** A three-dimensional array in memory. *)
Definition cube (nChan nTime : Z) (rows : list (list (list C))) : mem C :=
  fun a => znth c0 (a mod nTime) (znth [] (a / nTime mod nChan) (znth [] (a / (nChan * nTime)) rows)).
(** {antennas[i].stand.id: delays[i]} (fx.py 570-571, 684-685) and a look-up in it: the last antenna of a stand is found. *)
Definition delay_of_stand (ants : list ant) (delays : Z -> Z -> Qc) (id : Z) : res (Z -> Qc) :=
  match find (fun q => a_stand (snd q) =? id) (rev (combine (range 0 (zlen ants)) ants)) with
  | Some q => Ok (delays (fst q))
  | None => Raise KeyError
  end.
(** phaseRot1, phaseRot2 and the product phaseRot2.conj()*phaseRot1 of a baseline, with the gains (fx.py 595-605, 705-715) *)
Definition rotation (freq : list Qc) (d1 d2 : Z -> Qc) (a : ant * ant) (gain_correct : bool) (k : Z) : C :=
  let f := znth 0%Qc k freq in
  let r := cmul (conj (E (f * d2 k)%Qc)) (E (f * d1 k)%Qc) in
  if gain_correct then cmul r (rgain (fst a) (snd a) f, 0%Qc) else r.
(** XMaster (fx.py 501-613) for complex data with [nChan] channels and [nTime] samples.  A number of channels other than that of the
    frequencies is a ValueError (numpy would accept 1). *)
Definition x_master (freq : list Qc) (nChan nTime : Z) (signals : list (list (list C))) (ants : list ant) (include_auto : bool) (pol : string)
    (gain_correct : bool) (orderX : list Z) : res (list (ant * ant) * list (list (option C))) :=
  bind (two_pols pol) (fun pols => let '(pol1, pol2) := pols in
  let ants1 := of_pol pol1 ants in let idx1 := index_of_pol pol1 ants in
  let ants2 := of_pol pol2 ants in let idx2 := index_of_pol pol2 ants in
  let nStands := zlen ants1 in
  bind (get_baselines ants1 (Some ants2) include_auto) (fun baselines =>
  bind (delays_of freq ants1 ants2) (fun dl => let '(delays1, delays2) := dl in
  bind (take_rows signals idx1) (fun rows1 =>
  bind (if pol2 =? pol1 then Ok rows1 else take_rows signals idx2) (fun rows2 =>
  if negb (zlen rows2 =? zlen rows1) then Raise RuntimeError else
  let one := fun _ : Z => 1 in
  let out := xengine2 (zlen rows1) nChan nTime (cube nChan nTime rows1) (cube nChan nTime rows2) one one orderX in
  bind (kept ants1 ants2 include_auto) (fun keep =>
  bind (collect (map (fun q =>
      bind (label baselines (fst q)) (fun a =>
      bind (delay_of_stand ants1 delays1 (a_stand (fst a))) (fun d1 =>
      bind (delay_of_stand (ztake nStands ants2) delays2 (a_stand (snd a))) (fun d2 =>
      if negb (nChan =? zlen freq) then Raise ValueError else
      Ok (map (fun k => times (rotation freq d1 d2 a gain_correct k) (out (snd q * nChan + k))) (range 0 nChan))))))
    (combine (range 0 (zlen keep)) keep))) (fun rows =>
  Ok (baselines, rows)))))))).

(** XStokes (fx.py 616-723) *)
Definition x_stokes (freq : list Qc) (nChan nTime : Z) (signals : list (list (list C))) (ants : list ant) (include_auto : bool)
    (gain_correct : bool) (orderX : list Z) : res (list (ant * ant) * list (list (list (option C)))) :=
  let ants1 := of_pol 0 ants in let idx1 := index_of_pol 0 ants in
  let ants2 := of_pol 1 ants in let idx2 := index_of_pol 1 ants in
  let nStands := zlen ants1 in
  bind (get_baselines ants1 (Some ants2) include_auto) (fun baselines =>
  bind (delays_of freq ants1 ants2) (fun dl => let '(delays1, delays2) := dl in
  bind (take_rows signals idx1) (fun rows1 =>
  bind (take_rows signals idx2) (fun rows2 =>
  if negb (zlen rows2 =? zlen rows1) then Raise RuntimeError else
  let one := fun _ : Z => 1 in
  let out := xengine3 (zlen rows1) nChan nTime (cube nChan nTime rows1) (cube nChan nTime rows2) one one orderX in
  let nBL := Z.quot ((zlen rows1 + 1) * zlen rows1) 2 in
  bind (kept ants1 ants2 include_auto) (fun keep =>
  bind (collect (map (fun q =>
      bind (label baselines (fst q)) (fun a =>
      bind (delay_of_stand ants1 delays1 (a_stand (fst a))) (fun d1 =>
      bind (delay_of_stand (ztake nStands ants2) delays2 (a_stand (snd a))) (fun d2 =>
      if negb (nChan =? zlen freq) then Raise ValueError else
      Ok (fun p => map (fun k => times (rotation freq d1 d2 a gain_correct k) (out (p * nBL * nChan + snd q * nChan + k))) (range 0 nChan))))))
    (combine (range 0 (zlen keep)) keep))) (fun rows =>
  Ok (baselines, map (fun p => map (fun row => row p) rows) (range 0 4)))))))).
End Master.
