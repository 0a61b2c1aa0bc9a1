(** Property theorems (generated from P_SsmifT.v by tools/gen_theorems.py). *)
From Coq Require Import Ascii String List ZArith Bool Lia Permutation Sorted.
From Verif Require Import M_Py M_Str M_Sdf P_Str M_Ssmif S_Ssmif P_Ssmif P_SsmifI P_SsmifJ P_SsmifB P_SsmifC P_SsmifT.
Import ListNotations.
Open Scope Z_scope.

(** Every well-formed, complete and consistently wired station description file is read, and the station is the one it describes: its
    antennas are exactly 1 to twice the number of stands, in the order of the digitizers, each with the stand, position, orientation, status,
    front end and port, cable, ARX channel, board, digitizer and input connector the file gives for it (the last value given, or the default),
    and without what the file does not give it; location, gain and name follow the file. *)
Theorem C108_station_read : forall is_float lines es, file_says is_float lines es -> well_formed [] es = true -> complete es = true -> wired es ->
  exists st, parse_ssmif is_float lines = Ok st /\
    NoDup (map a_id (t_ants st)) /\ (forall k, In k (map a_id (t_ants st)) <-> 1 <= k <= 2 * num es "N_STD") /\
    StronglySorted (fun a b => a_dig a <= a_dig b) (t_ants st) /\
    (forall a, In a (t_ants st) -> antenna_is es a) /\
    t_idn st = text_at es "STATION_ID" [] /\ t_lat st = text_at es "GEO_N" [] /\ t_lon st = text_at es "GEO_E" [] /\ t_elv st = text_at es "GEO_EL" [] /\
    t_gain st = int_at es "DRX_GAIN" [] /\
    (forall k n, In (k, n) station_names -> text_at es "STATION_ID" [] = tx k -> t_name st = tx n) /\
    ((forall k n, In (k, n) station_names -> text_at es "STATION_ID" [] <> tx k) -> t_name st = tx "New LWA Station").
Proof. exact C108_station_read_proof. Qed.
Print Assumptions C108_station_read.

(** A file with two stands: three values differ from the defaults' wiring, one ARX channel is unused; the antennas come in the order 4, 2, 3, 1. *)
Example C108_example : let es := map entry_i ex_items in let ls := map line_i ex_items in
  file_says (fun _ => true) ls es /\ well_formed [] es = true /\ complete es = true /\ wired es /\
  match parse_ssmif (fun _ => true) ls with
  | Ok st => map a_id (t_ants st) = [4; 2; 3; 1] /\ map a_dig (t_ants st) = [1; 2; 3; 4] /\ t_name st = tx "LWASV" /\
      map (fun a => st_x (a_stand a)) (t_ants st) = map tx ["-3.5"; "0.0"; "-3.5"; "0.0"]%string /\ map (fun a => match a_arx a with Some x => x_chan x | None => 0 end) (t_ants st) = [0; 2; 3; 1]
  | Raise _ => False
  end.
Proof. exact C108_example_proof. Qed.

(** The attenuation kept with an antenna's cable is that of the antenna's stand when the attenuators of the stand with the cable's own number are set the same, or,
    for cables with a number above the number of stands, when the antenna's stand is a least attenuated one.
    Missing: every other file with attenuators set stand by stand (see the refutation). *)
Theorem C109_attenuation_partial : forall is_float lines es, file_says is_float lines es -> well_formed [] es = true -> complete es = true -> wired es ->
  exists st, parse_ssmif is_float lines = Ok st /\ forall a r, In a (t_ants st) -> is_in r (num es "N_RPD") -> int_at es "RPD_ANT" [r] = a_id a ->
    (r <= num es "N_STD" /\ forall k, In k ["ASP_AT1"; "ASP_AT2"; "ASP_AT3"]%string -> int_at es k [int_at es "ANT_STD" [a_id a]] = int_at es k [r]) \/
    (num es "N_STD" < r /\ forall k, In k ["ASP_AT1"; "ASP_AT2"; "ASP_AT3"]%string -> least es k (int_at es k [int_at es "ANT_STD" [a_id a]])) ->
    exists c, a_cable a = Some c /\ attenuation es (int_at es "ANT_STD" [a_id a]) (c_atten c).
Proof. exact C109_attenuation_partial_proof. Qed.
Print Assumptions C109_attenuation_partial.

(** The file of the example above has the attenuators at their defaults, so the hypotheses hold for all its cables: all attenuations are zero. *)
Example C109_example :
  match parse_ssmif (fun _ => true) (map line_i ex_items) with
  | Ok st => map (fun a => option_map c_atten (a_cable a)) (t_ants st) = [Some 0; Some 0; Some 0; Some 0]
  | Raise _ => False
  end.
Proof. exact C109_example_proof. Qed.

(** An attenuator set for the second stand only is kept with the cable of the second antenna, which is on the first stand, and the cables of the second stand (antennas 3 and 4)
    get none: with the settings of single stands the attenuations go to the wrong antennas. *)
Theorem C109_attenuation_refuted : let es := map entry_i asp_items in let ls := map line_i asp_items in
  file_says (fun _ => true) ls es /\ well_formed [] es = true /\ complete es = true /\ wired es /\
  attenuation es 1 0 /\ attenuation es 2 20 /\ int_at es "ANT_STD" [2] = 1 /\ int_at es "ANT_STD" [3] = 2 /\ int_at es "ANT_STD" [4] = 2 /\
  match parse_ssmif (fun _ => true) ls with
  | Ok st => map (fun a => (a_id a, option_map c_atten (a_cable a))) (t_ants st) = [(4, Some 0); (2, Some 20); (3, Some 0); (1, Some 0)]
  | Raise _ => False
  end.
Proof. exact C109_attenuation_refuted_proof. Qed.
Print Assumptions C109_attenuation_refuted.

(** The third attenuator set for one stand gets the first attenuator's last value; before any setting of the first attenuator the file is refused. *)
Theorem C109_third_attenuator_refuted :
  (match run_text (fun _ => true) (map line_i (ex_items ++ [("ASP_AT1", [2], NInt 5, "5"); ("ASP_AT3", [1], NInt 9, "9")]%string)) env0 with
   | Ok v => v "aspAT3"%string = Some (VL [VI 5; VI 0])
   | Raise _ => False
   end) /\
  parse_ssmif (fun _ => true) (map line_i (ex_items ++ [("ASP_AT3", [1], NInt 9, "9")]%string)) = Raise NameError.
Proof. exact C109_third_attenuator_refuted_proof. Qed.
Print Assumptions C109_third_attenuator_refuted.

(** After any well-formed beginning, an entry with a version other than 10, with something that is not a whole number where one is needed, or for something beyond the number
    declared makes the whole file refused, whatever follows. *)
Theorem C110_refused : forall is_float ls es l e rest, file_says is_float ls es -> well_formed [] es = true -> line_says is_float l (Some e) ->
  (forall z, e_key e = "FORMAT_VERSION"%string -> e_val e = NInt z -> z <> 10 -> parse_ssmif is_float (ls ++ l :: rest) = Raise RuntimeError) /\
  (forall t sh d, e_val e = NText t -> entry_of (e_key e) format = Some (sh, TInt, d) -> parse_int t = None -> parse_ssmif is_float (ls ++ l :: rest) = Raise ValueError) /\
  (beyond es e -> parse_ssmif is_float (ls ++ l :: rest) = Raise IndexError).
Proof. exact C110_refused_proof. Qed.
Print Assumptions C110_refused.

(** The beginning of the example's file followed by each of the three. *)
Example C110_example : let es := map entry_i ex_items in let bad := mkEntry "SNAP_ANT" [2; 3] (NInt 1) in
  file_says (fun _ => true) (map line_i ex_items) es /\ well_formed [] es = true /\
  line_says (fun _ => true) (tx "SNAP_ANT[2][3] 1") (Some bad) /\ beyond es bad /\
  parse_ssmif (fun _ => true) (map line_i ex_items ++ [tx "SNAP_ANT[2][3] 1"]) = Raise IndexError /\
  parse_ssmif (fun _ => true) (map line_i ex_items ++ [tx "N_SERVER two"]) = Raise ValueError /\
  parse_ssmif (fun _ => true) (map line_i ex_items ++ [tx "FORMAT_VERSION 9"]) = Raise RuntimeError.
Proof. exact C110_example_proof. Qed.

(** Index 0 is not refused but changes the last element, a missing index changes the last but one, and antenna number 0 gives its digitizer to the last antenna;
    a file without FORMAT_VERSION is accepted. *)
Theorem C110_other_indices_refuted :
  (match run_text (fun _ => true) (map line_i ex_items ++ [tx "ANT_STAT[0] 2"; tx "FEE_STAT 1"]) env0 with
   | Ok v => v "stdStat"%string = Some (VL [VI 3; VI 3; VI 3; VI 2]) /\ v "feeStat"%string = Some (VL [VI 1; VI 3])
   | Raise _ => False
   end) /\
  (match parse_ssmif (fun _ => true) (map line_i ex_items ++ [tx "SNAP_ANT[1][2] 0"]) with
   | Ok st => map (fun a => (a_id a, a_dig a)) (t_ants st) = [(2, 0); (4, 2); (3, 3); (1, 4)]
   | Raise _ => False
   end) /\
  (match parse_ssmif (fun _ => true) (map line_i (tl ex_items)) with Ok st => length (t_ants st) = 4%nat | Raise _ => False end).
Proof. exact C110_other_indices_refuted_proof. Qed.
Print Assumptions C110_other_indices_refuted.

(** A file that does not name an ARX board is refused as soon as one of its channels is used, although the board's name has a default; a blank after the
    station's identifier makes the station unknown; a comment line that does not start in the first column is refused; the port of an ARX board overwrites its rack. *)
Theorem C110_incomplete_refuted :
  parse_ssmif (fun _ => true) (map line_i (filter (fun x => negb (String.eqb (e_key (entry_i x)) "ARB_ID")) ex_items)) = Raise ValueError /\
  (match parse_ssmif (fun _ => true) (map line_i ex_items ++ [tx "STATION_ID SV "]) with Ok st => t_name st = tx "New LWA Station" | Raise _ => False end) /\
  parse_ssmif (fun _ => true) (map line_i ex_items ++ [tx " # a comment"]) = Raise AttributeError /\
  parse_ssmif (fun _ => true) (map line_i ex_items ++ [tx " #comment"]) = Raise ValueError /\
  (match run_text (fun _ => true) (map line_i ex_items ++ [tx "ARB_RACK[1] 2"; tx "ARB_PORT[1] 6"]) env0 with
   | Ok v => v "arxRack"%string = Some (VL [VI 6]) /\ v "arxPort"%string = Some (VL [VI 0])
   | Raise _ => False
   end).
Proof. exact C110_incomplete_refuted_proof. Qed.
Print Assumptions C110_incomplete_refuted.
