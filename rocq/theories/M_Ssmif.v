(** Model of the station description file (SSMIF) reader of /repo/lsl/common/stations.py: _parse_ssmif_text (1072-1583) and
    parse_ssmif (1743-1911).
    Simplifications: a float is kept as its text ([VF t] stands for float(t); whether t is a float is the parameter
    [is_float]), so the scaling of the velocity factor (/100) and of the dispersive delay (times 1e-9) when the cables are made is
    left out; the file is given as its list of lines; local variables that nothing reads later (loop counters, [value]) are
    left out. *)
From Coq Require Import String List ZArith Bool.
From Verif Require Import M_Py M_Str M_Sdf.
Import ListNotations.
Open Scope Z_scope.

(** Values of the local variables. *)
Inductive pv := VI (z : Z) | VS (s : str) | VF (s : str) | VL (l : list pv).
(** The local variables (locals(), 1582): the names bound so far. *)
Definition env := string -> option pv.
Definition env0 : env := fun _ => None.
Definition bind_var (x : string) (v : pv) (e : env) : env := fun y => if String.eqb y x then Some v else e y.
(** Reading a local variable that is not bound: UnboundLocalError. *)
Definition get_var (e : env) (x : string) : res pv := match e x with Some v => Ok v | None => Raise NameError end.

(** [A-Z_0-9]+ (1078). *)
Definition kw_char (c : Z) : bool := ((65 <=? c) && (c <=? 90)) || (c =? 95) || ((48 <=? c) && (c <=? 57)).
Fixpoint kw_part (s : str) : str * str :=
  match s with c :: r => if kw_char c then let '(k, t) := kw_part r in (c :: k, t) else ([], s) | [] => ([], []) end.

(** One line (1092-1111): nothing, an exception, or keyword, three indices (-1 for a missing one) and value. *)
Inductive scanned := Nothing | Fails (e : exn) | Entry (k : str) (ids : list Z) (v : str).
Definition scan (l : str) : scanned :=
  let s := drop_char 13 (drop_char 10 l) in
  match s with
  | [] => Nothing
  | c :: _ =>
      if forallb is_space s then Nothing
      else if c =? 35 then Nothing
      else match words 1 s with
           | [k; v] => match kw_part k with
                       | ([], _) => Fails AttributeError
                       | (kw, rest) => Entry kw (firstn 3 (id_part 3 rest ++ [-1; -1; -1])) (match split1 35 v with Some (a, _) => a | None => v end)
                       end
           | _ => Fails ValueError
           end
  end.

(** The kinds of assignment in the chain of keyword tests (1113-1573). *)
Inductive conv := CInt | CFloat | CStr | CIntOrStr.
(** The index expressions: ids[k]-1, or a literal. *)
Inductive pidx := PId (k : nat) | PConst (k : Z).
Inductive instr :=
| Version                                                                    (* int(value, 10) must be 10 *)
| SetVar (x : string) (c : conv)                                             (* x = conv(value) *)
| Alloc (x : string) (arrs : list (string * (Z * (Z -> pv))))                (* x = int(value); y = [init(n) for n in range(m*x)] *)
| Alloc2 (x rows : string) (arrs : list (string * (Z -> Z -> Z -> pv)))      (* x = int(value); y = [[init(x,n,c) for c in range(x)] for n in range(rows)] *)
| Put (x : string) (c : conv) (p : list pidx)                                (* x[i]... = conv(value) *)
| PutOrAll (x n : string)                                                    (* without an index: x = [float(value) for n in range(n)]; else x[ids[0]-1] = float(value) *)
| AspPut (x loc src : string).                                               (* loc = int(value); without an index: x = [loc for n in range(nStand)]; else x[ids[0]-1] = src *)

Definition k_ (v : pv) : Z * (Z -> pv) := (1, fun _ => v).
Definition unk : pv := VS (tx "UNK").
Definition z0 : pv := VF (tx "0.0").
(** The keywords, in the order of the tests. *)
Definition table : list (string * instr) :=
  [("FORMAT_VERSION", Version);                                              (* 1117-1120 *)
   ("STATION_ID", SetVar "idn" CStr); ("GEO_N", SetVar "lat" CFloat);        (* 1126-1137 *)
   ("GEO_E", SetVar "lon" CFloat); ("GEO_EL", SetVar "elv" CFloat);
   ("N_STD", Alloc "nStand"                                                  (* 1143-1160 *)
     [("stdPos", (1, fun _ => VL [z0; z0; z0])); ("stdAnt", (2, fun n => VI (n / 2 + 1))); ("stdOrie", (2, fun n => VI (n mod 2)));
      ("stdStat", (2, fun _ => VI 3)); ("stdTheta", (2, fun _ => z0)); ("stdPhi", (2, fun _ => z0)); ("stdDesi", (2, fun _ => VI 1));
      ("aspFlt", k_ (VI (-1))); ("aspAT1", k_ (VI 0)); ("aspAT2", k_ (VI 0)); ("aspAT3", k_ (VI 0))]);
   ("STD_LX", Put "stdPos" CFloat [PId 0; PConst 0]);                        (* 1162-1170 *)
   ("STD_LY", Put "stdPos" CFloat [PId 0; PConst 1]);
   ("STD_LZ", Put "stdPos" CFloat [PId 0; PConst 2]);
   ("ANT_STD", Put "stdAnt" CInt [PId 0]); ("ANT_ORIE", Put "stdOrie" CInt [PId 0]);   (* 1172-1190 *)
   ("ANT_STAT", Put "stdStat" CInt [PId 0]); ("ANT_THETA", Put "stdTheta" CFloat [PId 0]); ("ANT_PHI", Put "stdPhi" CFloat [PId 0]);
   ("N_FEE", Alloc "nFee"                                                    (* 1197-1208 *)
     [("feeID", k_ unk); ("feeStat", k_ (VI 3)); ("feeDesi", k_ (VI 1)); ("feeGai1", k_ (VF (tx "35.7"))); ("feeGai2", k_ (VF (tx "35.7")));
      ("feeAnt1", (1, fun n => VI (2 * n + 1))); ("feeAnt2", (1, fun n => VI (2 * n + 2)))]);
   ("FEE_ID", Put "feeID" CStr [PId 0]); ("FEE_STAT", Put "feeStat" CInt [PId 0]);     (* 1210-1233 *)
   ("FEE_DESI", Put "feeDesi" CInt [PId 0]); ("FEE_GAI1", Put "feeGai1" CFloat [PId 0]); ("FEE_GAI2", Put "feeGai2" CFloat [PId 0]);
   ("FEE_ANT1", Put "feeAnt1" CInt [PId 0]); ("FEE_ANT2", Put "feeAnt2" CInt [PId 0]);
   ("N_RPD", Alloc "nRPD"                                                    (* 1236-1251 *)
     [("rpdID", k_ unk); ("rpdStat", k_ (VI 3)); ("rpdLeng", k_ z0); ("rpdVF", k_ (VF (tx "83.0"))); ("rpdDD", k_ (VF (tx "2.4")));
      ("rpdA0", k_ (VF (tx "0.00428"))); ("rpdA1", k_ (VF (tx "0.00000"))); ("rpdFre", k_ (VF (tx "10e6"))); ("rpdStr", k_ (VF (tx "1.0")));
      ("rpdDesi", k_ (VI 1)); ("rpdAnt", (1, fun n => VI (n + 1)))]);
   ("RPD_ID", Put "rpdID" CStr [PId 0]); ("RPD_STAT", Put "rpdStat" CInt [PId 0]); ("RPD_LENG", Put "rpdLeng" CFloat [PId 0]);   (* 1253-1263 *)
   ("RPD_VF", PutOrAll "rpdVF" "nRPD"); ("RPD_DD", PutOrAll "rpdDD" "nRPD"); ("RPD_A0", PutOrAll "rpdA0" "nRPD");               (* 1265-1305 *)
   ("RPD_A1", PutOrAll "rpdA1" "nRPD"); ("RPD_FREF", PutOrAll "rpdFre" "nRPD"); ("RPD_STR", PutOrAll "rpdStr" "nRPD");
   ("RPD_DESI", Put "rpdDesi" CStr [PId 0]); ("RPD_ANT", Put "rpdAnt" CInt [PId 0]);   (* 1307-1313 *)
   ("N_SEP", Alloc "nSEP"                                                    (* 1316-1325 *)
     [("sepCbl", k_ unk); ("sepLeng", k_ z0); ("sepDesi", k_ (VI 1)); ("sepGain", k_ z0); ("sepAnt", (1, fun n => VI (n + 1)))]);
   ("SEP_CABL", Put "sepCbl" CStr [PId 0]); ("SEP_LENG", Put "sepLeng" CFloat [PId 0]); ("SEP_DESI", Put "sepDesi" CInt [PId 0]);  (* 1327-1345 *)
   ("SEP_GAIN", Put "sepGain" CFloat [PId 0]); ("SEP_ANT", Put "sepAnt" CInt [PId 0]);
   ("N_ARB", Alloc "nARX"                                                    (* 1352-1361 *)
     [("arxID", k_ unk); ("arxSlot", k_ (VI 0)); ("arxDesi", k_ (VI 0)); ("arxRack", k_ (VI 0)); ("arxPort", k_ (VI 0))]);
   ("N_ARBCH", Alloc2 "nChanARX" "nARX"                                      (* 1363-1371 *)
     [("arxStat", fun _ _ _ => VI 3); ("arxAnt", fun m n c => VI (n * m + c + 1)); ("arxIn", fun _ _ _ => unk); ("arxOut", fun _ _ _ => unk)]);
   ("ARB_ID", Put "arxID" CStr [PId 0]); ("ARB_SLOT", Put "arxSlot" CIntOrStr [PId 0]); ("ARB_DESI", Put "arxDesi" CInt [PId 0]);  (* 1373-1386 *)
   ("ARB_RACK", Put "arxRack" CInt [PId 0]); ("ARB_PORT", Put "arxRack" CInt [PId 0]); (* 1388-1394 *)
   ("ARB_STAT", Put "arxStat" CInt [PId 0; PId 1]); ("ARB_ANT", Put "arxAnt" CInt [PId 0; PId 1]);                              (* 1396-1410 *)
   ("ARB_IN", Put "arxIn" CStr [PId 0; PId 1]); ("ARB_OUT", Put "arxOut" CStr [PId 0; PId 1]);
   ("N_SNAP", Alloc "nRoach" [("snapID", k_ unk); ("snapSlot", k_ (VI 0)); ("snapDesi", k_ (VI 1))]);                           (* 1417-1424 *)
   ("N_SNAPCH", Alloc2 "nChanRoach" "nRoach"                                 (* 1426-1434 *)
     [("snapStat", fun _ _ _ => VI 3); ("snapInR", fun _ _ _ => unk); ("snapInC", fun _ _ _ => unk); ("snapAnt", fun m n c => VI (n * m + c + 1))]);
   ("SNAP_ID", Put "snapID" CStr [PId 0]); ("SNAP_SLOT", Put "snapSlot" CStr [PId 0]); ("SNAP_DESI", Put "snapDesi" CInt [PId 0]); (* 1436-1446 *)
   ("SNAP_STAT", Put "snapStat" CInt [PId 0; PId 1]); ("SNAP_INR", Put "snapInR" CStr [PId 0; PId 1]);                          (* 1448-1462 *)
   ("SNAP_INC", Put "snapInC" CStr [PId 0; PId 1]); ("SNAP_ANT", Put "snapAnt" CInt [PId 0; PId 1]);
   ("N_SERVER", Alloc "nServer" [("serverID", k_ unk); ("serverSlot", k_ unk); ("serverStat", k_ (VI 3)); ("serverDesi", k_ (VI 1))]);  (* 1464-1472 *)
   ("SERVER_ID", Put "serverID" CStr [PId 0]); ("SERVER_SLOT", Put "serverSlot" CStr [PId 0]);                                  (* 1474-1488 *)
   ("SERVER_STAT", Put "serverStat" CInt [PId 0]); ("SERVER_DESI", Put "serverDesi" CInt [PId 0]);
   ("N_DR", Alloc "nDR" [("drStat", k_ (VI 0)); ("drID", k_ unk); ("drShlf", k_ (VI 0)); ("drPC", k_ unk); ("drNDP", k_ (VI 0))]);  (* 1495-1504 *)
   ("DR_STAT", Put "drStat" CInt [PId 0]); ("DR_ID", Put "drID" CStr [PId 0]); ("DR_SHLF", Put "drShlf" CInt [PId 0]);          (* 1506-1524 *)
   ("DR_PC", Put "drPC" CStr [PId 0]); ("DR_NDP", Put "drNDP" CInt [PId 0]);
   ("ASP_FLT", AspPut "aspFlt" "flt" "flt"); ("ASP_AT1", AspPut "aspAT1" "at1" "at1");                                          (* 1530-1555 *)
   ("ASP_AT2", AspPut "aspAT2" "at2" "at2"); ("ASP_AT3", AspPut "aspAT3" "at3" "at1");                                          (* 1557-1564: the indexed branch stores at1 *)
   ("DRX_GAIN", SetVar "drxGai" CInt)]%string.                               (* 1570-1572 *)
Fixpoint find_instr (k : str) (l : list (string * instr)) : option instr :=
  match l with [] => None | (n, i) :: r => if str_eqb k (tx n) then Some i else find_instr k r end.

(** l[i]... = v with Python's indices: negative ones count from the end. *)
Fixpoint put_path (p : list Z) (v : pv) (t : pv) : res pv :=
  match p with
  | [] => Ok v
  | i :: q => match t with
              | VL l => match py_get i l with
                        | None => Raise IndexError
                        | Some u => bind (put_path q v u) (fun u' => match py_set i u' l with Some l' => Ok (VL l') | None => Raise IndexError end)
                        end
              | _ => Raise TypeError
              end
  end.
Definition zrange (n : Z) : list Z := map Z.of_nat (seq 0 (Z.to_nat n)).
Fixpoint assoc {A} (x : string) (l : list (string * A)) : option A :=
  match l with [] => None | (y, a) :: r => if String.eqb x y then Some a else assoc x r end.
Definition as_int (v : pv) : Z := match v with VI z => z | _ => 0 end.

Section Reader.
  (** Whether float() accepts a text. *)
  Variable is_float : str -> bool.

  Definition convert (c : conv) (v : str) : res pv :=
    match c with
    | CInt => match parse_int v with Some z => Ok (VI z) | None => Raise ValueError end
    | CFloat => if is_float v then Ok (VF v) else Raise ValueError
    | CStr => Ok (VS v)
    | CIntOrStr => match parse_int v with Some z => Ok (VI z) | None => Ok (VS v) end
    end.
  Definition index (ids : list Z) (p : pidx) : Z := match p with PId k => nth k ids (-1) - 1 | PConst k => k end.

  Definition run_instr (i : instr) (ids : list Z) (v : str) (e : env) : res env :=
    match i with
    | Version => match parse_int v with Some z => if z =? 10 then Ok e else Raise RuntimeError | None => Raise ValueError end
    | SetVar x c => bind (convert c v) (fun a => Ok (bind_var x a e))
    | Alloc x arrs =>
        match parse_int v with
        | None => Raise ValueError
        | Some n => Ok (fun y => match assoc y arrs with
                                 | Some (m, init) => Some (VL (map init (zrange (m * n))))
                                 | None => bind_var x (VI n) e y
                                 end)
        end
    | Alloc2 x rows arrs =>
        match parse_int v with
        | None => Raise ValueError
        | Some m => bind (get_var e rows) (fun r =>
                      Ok (fun y => match assoc y arrs with
                                   | Some init => Some (VL (map (fun n => VL (map (init m n) (zrange m))) (zrange (as_int r))))
                                   | None => bind_var x (VI m) e y
                                   end))
        end
    | Put x c p => bind (convert c v) (fun a => bind (get_var e x) (fun t => bind (put_path (map (index ids) p) a t) (fun t' => Ok (bind_var x t' e))))
    | PutOrAll x n =>
        if nth 0 ids (-1) =? -1
        then bind (get_var e n) (fun k => if as_int k <=? 0 then Ok (bind_var x (VL []) e)
                                          else bind (convert CFloat v) (fun a => Ok (bind_var x (VL (map (fun _ => a) (zrange (as_int k)))) e)))
        else bind (convert CFloat v) (fun a => bind (get_var e x) (fun t => bind (put_path [nth 0 ids (-1) - 1] a t) (fun t' => Ok (bind_var x t' e))))
    | AspPut x loc src =>
        bind (convert CInt v) (fun a =>
          let e1 := bind_var loc a e in
          if nth 0 ids (-1) =? -1
          then bind (get_var e1 "nStand"%string) (fun k => Ok (bind_var x (VL (map (fun _ => a) (zrange (as_int k)))) e1))
          else bind (get_var e1 src) (fun b => bind (get_var e1 x) (fun t => bind (put_path [nth 0 ids (-1) - 1] b t) (fun t' => Ok (bind_var x t' e1)))))
    end.

  (** The loop over the lines (1091-1573). *)
  Definition run_line (l : str) (e : env) : res env :=
    match scan l with
    | Nothing => Ok e
    | Fails x => Raise x
    | Entry k ids v => match find_instr k table with Some i => run_instr i ids v e | None => Ok e end
    end.
  Fixpoint run_text (ls : list str) (e : env) : res env :=
    match ls with [] => Ok e | l :: r => bind (run_line l e) (run_text r) end.

  (** The objects parse_ssmif makes.  Stand (536-560). *)
  Record stand := mkStand { st_id : Z; st_x : str; st_y : str; st_z : str }.
  (** FEE (652-672). *)
  Record fee := mkFee { f_id : str; f_num : Z; f_gain1 : str; f_gain2 : str; f_status : Z }.
  (** Cable (727-757); [c_atten] is asp_atten_db in half decibels. *)
  Record cable := mkCable { c_id : str; c_len : str; c_vf : str; c_dd : str; c_a0 : str; c_a1 : str; c_str : str; c_fref : str; c_atten : Z }.
  (** ARX (868-893). *)
  Record arx := mkArx { x_id : Z; x_chan : Z; x_asp : Z; x_in : str; x_out : str }.
  (** Antenna (404-469); None for the placeholders FEE('', 0), Cable('', 0) and ARX(0, 0, 0). *)
  Record ant := mkAnt { a_id : Z; a_stand : stand; a_pol : Z; a_theta : str; a_phi : str; a_status : Z;
    a_fee : option fee; a_port : Z; a_cable : option cable; a_arx : option arx; a_board : Z; a_dig : Z; a_input : str }.
  Record station := mkStation { t_name : str; t_idn : str; t_lat : str; t_lon : str; t_elv : str; t_iface : bool; t_ants : list ant; t_gain : Z }.

  (** ssmifDataDict[x] (1766-1815) and the lists in it.  Simplification: a value of another type, which _parse_ssmif_text never
      puts there, reads as 0 or ''. *)
  Definition dict (e : env) (x : string) : res pv := match e x with Some v => Ok v | None => Raise KeyError end.
  Definition as_str (v : pv) : str := match v with VS s => s | VF s => s | _ => [] end.
  Definition as_list (v : pv) : list pv := match v with VL l => l | _ => [] end.
  Definition ints (v : pv) : list Z := map as_int (as_list v).
  Definition strs (v : pv) : list str := map as_str (as_list v).

  Definition number {A} (l : list A) : list (Z * A) := combine (map (fun n => n + 1) (zrange (Z.of_nat (length l)))) l.
  (** 1820-1824. *)
  Definition make_stand (x : Z * pv) : stand :=
    let p := strs (snd x) in mkStand (fst x) (nth 0 p []) (nth 1 p []) (nth 2 p []).
  (** 1827-1831. *)
  Definition make_fees (id g1 g2 : list str) (stat : list Z) : list fee :=
    map (fun x => match x with (i, (a, (b, (c, d)))) => mkFee a i b c d end) (number (combine id (combine g1 (combine g2 stat)))).
  (** 1834-1838. *)
  Definition make_cables (id len vf dd a0 a1 st fr : list str) : list cable :=
    map (fun x => match x with (a, (b, (c, (d, (e, (f, (g, h))))))) => mkCable a b c d e f g h 0 end)
        (combine id (combine len (combine vf (combine dd (combine a0 (combine a1 (combine st fr))))))).
  (** min(l) (1841-1843): ValueError for an empty list. *)
  Definition py_min (l : list Z) : res Z := match l with [] => Raise ValueError | x :: r => Ok (fold_left Z.min r x) end.
  Definition with_atten (v : Z) (c : cable) : cable := mkCable (c_id c) (c_len c) (c_vf c) (c_dd c) (c_a0 c) (c_a1 c) (c_str c) (c_fref c) v.
  (** 1844-1848: the zip ends with the shortest list; the cables beyond keep theirs. *)
  Fixpoint attenuate (m1 m2 m3 : Z) (cs : list cable) (l1 l2 l3 : list Z) : list cable :=
    match cs, l1, l2, l3 with
    | c :: cs', x :: l1', y :: l2', z :: l3' => with_atten ((x - m1) * 4 + (y - m2) * 4 + (z - m3)) c :: attenuate m1 m2 m3 cs' l1' l2' l3'
    | _, _, _, _ => cs
    end.
  (** 1852-1856. *)
  Fixpoint make_ants (stands : list stand) (l : list (Z * (Z * (Z * (str * (str * Z)))))) : res (list ant) :=
    match l with
    | [] => Ok []
    | (i, (s, (pol, (th, (ph, stat))))) :: r =>
        match py_get (s - 1) stands with
        | None => Raise IndexError
        | Some d => bind (make_ants stands r) (fun q => Ok (mkAnt i d pol th ph stat None 1 None None 0 0 [] :: q))
        end
    end.

  Definition set_fee (port : Z) (f : fee) (a : ant) : ant :=
    mkAnt (a_id a) (a_stand a) (a_pol a) (a_theta a) (a_phi a) (a_status a) (Some f) port (a_cable a) (a_arx a) (a_board a) (a_dig a) (a_input a).
  Definition set_cable (c : cable) (a : ant) : ant :=
    mkAnt (a_id a) (a_stand a) (a_pol a) (a_theta a) (a_phi a) (a_status a) (a_fee a) (a_port a) (Some c) (a_arx a) (a_board a) (a_dig a) (a_input a).
  Definition set_arx (x : arx) (a : ant) : ant :=
    mkAnt (a_id a) (a_stand a) (a_pol a) (a_theta a) (a_phi a) (a_status a) (a_fee a) (a_port a) (a_cable a) (Some x) (a_board a) (a_dig a) (a_input a).
  Definition set_snap (x : Z * (Z * str)) (a : ant) : ant :=
    mkAnt (a_id a) (a_stand a) (a_pol a) (a_theta a) (a_phi a) (a_status a) (a_fee a) (a_port a) (a_cable a) (a_arx a) (fst x) (fst (snd x)) (snd (snd x)).
  (** for obj,ant in ...: antennas[ant-1].attr = obj. *)
  Fixpoint each {A} (f : A -> ant -> ant) (l : list (A * Z)) (ants : list ant) : res (list ant) :=
    match l with
    | [] => Ok ants
    | (x, n) :: r => match py_get (n - 1) ants with
                     | None => Raise IndexError
                     | Some a => match py_set (n - 1) (f x a) ants with Some ants' => each f r ants' | None => Raise IndexError end
                     end
    end.

  (** The ARX channels in order (1878-1887) with their antennas; int(id, 10) of the board's name in ARX (887-888), for an
      antenna number that is neither 0 nor above 512.  Simplification: the lists of a board have the same length (they do unless
      the number of boards is given twice), so no IndexError comes from arxID[i], arxIn[i][j] or arxOut[i][j]. *)
  Fixpoint arx_row (name : str) (i m : Z) (l : list (Z * (Z * (str * str)))) (ants : list ant) : res (list ant) :=
    match l with
    | [] => Ok ants
    | (j, (n, (inp, out))) :: r =>
        if (n =? 0) || (512 <? n) then arx_row name i m r ants
        else match parse_int name with
             | None => Raise ValueError
             | Some b => bind (each set_arx [(mkArx b (j + 1) (i * m + j + 1) inp out, n)] ants) (arx_row name i m r)
             end
    end.
  Fixpoint arx_rows (m : Z) (l : list (Z * (str * (list Z * (list str * list str))))) (ants : list ant) : res (list ant) :=
    match l with
    | [] => Ok ants
    | (i, (name, (an, (ins, outs)))) :: r =>
        bind (arx_row name i m (combine (zrange (Z.of_nat (length an))) (combine an (combine ins outs))) ants) (arx_rows m r)
    end.
  (** 1890-1898: boards and digitizers are counted from 1, the digitizers over all boards. *)
  Fixpoint snap_rows (i j : Z) (l : list (list Z * list str)) : list ((Z * (Z * str)) * Z) :=
    match l with
    | [] => []
    | (an, inp) :: r =>
        let b := combine an inp in
        map (fun x => match x with (k, (n, con)) => ((i, (j + k, con)), n) end) (combine (zrange (Z.of_nat (length b))) b)
          ++ snap_rows (i + 1) (j + Z.of_nat (length b)) r
    end.

  (** list.sort(key=digitizer) (145): stable. *)
  Fixpoint insert_dig (a : ant) (l : list ant) : list ant :=
    match l with [] => [a] | b :: r => if a_dig a <=? a_dig b then a :: l else b :: insert_dig a r end.
  Fixpoint sort_dig (l : list ant) : list ant := match l with [] => [] | a :: r => insert_dig a (sort_dig r) end.

  (** _id2name (34) and the stations with an interface module (1903-1910). *)
  Definition id2name : list (str * str) := map (fun p => (tx (fst p), tx (snd p))) [("VL", "LWA1"); ("NA", "LWANA"); ("SV", "LWASV"); ("OV", "OVROLWA")]%string.
  Fixpoint find_name (k : str) (l : list (str * str)) : option str :=
    match l with [] => None | (a, b) :: r => if str_eqb k a then Some b else find_name k r end.
  Definition has_iface (k : str) : bool := existsb (str_eqb k) (map tx ["VL"; "SV"; "NA"; "CS"; "MC"]%string).

  Fixpoint dicts (e : env) (xs : list string) : res (list pv) :=
    match xs with [] => Ok [] | x :: r => bind (dict e x) (fun v => bind (dicts e r) (fun vs => Ok (v :: vs))) end.
  Definition dict_names : list string :=
    ["idn"; "lat"; "lon"; "elv"; "stdPos"; "feeID"; "feeGai1"; "feeGai2"; "feeStat"; "feeAnt1"; "feeAnt2";
     "rpdID"; "rpdLeng"; "rpdVF"; "rpdDD"; "rpdA0"; "rpdA1"; "rpdStr"; "rpdFre"; "rpdAnt"; "stdAnt"; "stdOrie"; "stdTheta"; "stdPhi"; "stdStat";
     "nChanARX"; "arxID"; "arxAnt"; "arxIn"; "arxOut"; "snapAnt"; "snapInR"; "aspFlt"; "aspAT1"; "aspAT2"; "aspAT3"]%string.
  Definition at_ (vs : list pv) (k : nat) : pv := nth k vs (VL []).

  (** parse_ssmif after the dictionary is there (1766-1911). *)
  Definition build (e : env) : res station :=
    bind (dicts e dict_names) (fun vs =>
    let gain := match e "drxGai"%string with Some v => as_int v | None => 0 end in
    let stands := map make_stand (number (as_list (at_ vs 4))) in
    let fees := make_fees (strs (at_ vs 5)) (strs (at_ vs 6)) (strs (at_ vs 7)) (ints (at_ vs 8)) in
    let cables0 := make_cables (strs (at_ vs 11)) (strs (at_ vs 12)) (strs (at_ vs 13)) (strs (at_ vs 14)) (strs (at_ vs 15)) (strs (at_ vs 16))
                     (strs (at_ vs 17)) (strs (at_ vs 18)) in
    let l1 := ints (at_ vs 33) in let l2 := ints (at_ vs 34) in let l3 := ints (at_ vs 35) in
    bind (py_min l1) (fun m1 => bind (py_min l2) (fun m2 => bind (py_min l3) (fun m3 =>
    let cables := attenuate m1 m2 m3 cables0 l1 l2 l3 in
    bind (make_ants stands (number (combine (ints (at_ vs 20)) (combine (ints (at_ vs 21)) (combine (strs (at_ vs 22))
           (combine (strs (at_ vs 23)) (ints (at_ vs 24)))))))) (fun ants0 =>
    bind (each (set_fee 1) (combine fees (ints (at_ vs 9))) ants0) (fun ants1 =>
    bind (each (set_fee 2) (combine fees (ints (at_ vs 10))) ants1) (fun ants2 =>
    bind (each set_cable (combine cables (ints (at_ vs 19))) ants2) (fun ants3 =>
    let an := map ints (as_list (at_ vs 27)) in
    bind (arx_rows (as_int (at_ vs 25)) (combine (zrange (Z.of_nat (length an))) (combine (strs (at_ vs 26)) (combine an
            (combine (map strs (as_list (at_ vs 28))) (map strs (as_list (at_ vs 29))))))) ants3) (fun ants4 =>
    bind (each set_snap (snap_rows 1 1 (combine (map ints (as_list (at_ vs 30))) (map strs (as_list (at_ vs 31))))) ants4) (fun ants5 =>
    let idn := as_str (at_ vs 0) in
    Ok (match find_name idn id2name with
        | Some name => mkStation name idn (as_str (at_ vs 1)) (as_str (at_ vs 2)) (as_str (at_ vs 3)) (has_iface idn) (sort_dig ants5) gain
        | None => mkStation (tx "New LWA Station") idn (as_str (at_ vs 1)) (as_str (at_ vs 2)) (as_str (at_ vs 3)) false (sort_dig ants5) gain
        end))))))))))).

  Definition parse_ssmif (lines : list str) : res station := bind (run_text lines env0) build.
End Reader.
