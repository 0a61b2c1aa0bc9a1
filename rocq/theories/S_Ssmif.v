(** What a station description file says, independently of how it is read: entries "keyword[index]... value", the keywords with
    the section they belong to, the type of their value and the value that holds when the file does not give one; and what the
    station made from the file must be. *)
From Coq Require Import String List ZArith Bool.
From Verif Require Import M_Str M_Sdf M_Ssmif.
Import ListNotations.
Open Scope Z_scope.

Inductive val := NInt (z : Z) | NText (s : str) | NFloat (s : str).
Record entry := mkEntry { e_key : string; e_ids : list Z; e_val : val }.

(** The text of a value: any text Python reads as that integer, a text taken as it is, or a text that is a number. *)
Definition shows (is_float : str -> bool) (v : val) (t : str) : Prop :=
  match v with NInt z => parse_int t = Some z | NText s => t = s | NFloat s => is_float s = true /\ t = s end.
Definition space (c : Z) : Prop := is_space c = true /\ c <> 10 /\ c <> 13.
Definition inline (c : Z) : Prop := c <> 10 /\ c <> 13.
Definition key_text (k : string) : Prop := k <> EmptyString /\
  Forall (fun c => 65 <= c <= 90 \/ c = 95 \/ 48 <= c <= 57) (tx k).
Fixpoint bracketed (ids : list Z) : str := match ids with [] => [] | i :: r => [91] ++ dec i ++ [93] ++ bracketed r end.
(** A line says nothing, or an entry: blanks, keyword with indices, blanks, the value, and possibly a comment. *)
Inductive line_says (is_float : str -> bool) : str -> option entry -> Prop :=
| says_blank : forall l, Forall space l -> line_says is_float l None
| says_comment : forall l, Forall inline l -> line_says is_float (35 :: l) None
| says_entry : forall lead k ids gap t comment v,
    Forall space lead -> key_text k -> (length ids <= 3)%nat -> Forall (fun i => 0 <= i) ids ->
    gap <> [] -> Forall space gap -> Forall inline t -> ~ In 35 t -> (exists c r, t = c :: r /\ is_space c = false) ->
    comment = [] \/ (exists r, comment = 35 :: r /\ Forall inline r) -> shows is_float v t ->
    line_says is_float (lead ++ tx k ++ bracketed ids ++ gap ++ t ++ comment) (Some (mkEntry k ids v)).
Inductive file_says (is_float : str -> bool) : list str -> list entry -> Prop :=
| file_end : file_says is_float [] []
| file_nothing : forall l ls es, line_says is_float l None -> file_says is_float ls es -> file_says is_float (l :: ls) es
| file_entry : forall l e ls es, line_says is_float l (Some e) -> file_says is_float ls es -> file_says is_float (l :: ls) (e :: es).

(** The keywords. *)
Inductive shape :=
| Scalar                            (* keyword value *)
| Count                             (* the number of things in a section *)
| CountIn (n : string)              (* the number of channels of each of them *)
| Each (n : string) (m : Z)         (* keyword[i] value, i from 1 to m times the number [n] *)
| EachOrAll (n : string)            (* keyword[i] value, or keyword value for all *)
| AllOnly (n : string)              (* keyword value for all *)
| Grid (n c : string).              (* keyword[i][j] value, j from 1 to the number of channels [c] *)
Inductive ty := TInt | TText | TFloat | TSlot.
Definition no_default (m i j : Z) : val := NInt 0.
Definition i_ (z : Z) (m i j : Z) : val := NInt z.
Definition t_ (s : string) (m i j : Z) : val := NText (tx s).
Definition f_ (s : string) (m i j : Z) : val := NFloat (tx s).
Definition format : list (string * (shape * ty * (Z -> Z -> Z -> val))) :=
  [("STATION_ID", (Scalar, TText, no_default)); ("GEO_N", (Scalar, TFloat, no_default)); ("GEO_E", (Scalar, TFloat, no_default));
   ("GEO_EL", (Scalar, TFloat, no_default)); ("DRX_GAIN", (Scalar, TInt, i_ 0));
   ("N_STD", (Count, TInt, no_default));
   ("STD_LX", (Each "N_STD" 1, TFloat, f_ "0.0")); ("STD_LY", (Each "N_STD" 1, TFloat, f_ "0.0")); ("STD_LZ", (Each "N_STD" 1, TFloat, f_ "0.0"));
   ("ANT_STD", (Each "N_STD" 2, TInt, fun _ i _ => NInt ((i + 1) / 2))); ("ANT_ORIE", (Each "N_STD" 2, TInt, fun _ i _ => NInt ((i + 1) mod 2)));
   ("ANT_STAT", (Each "N_STD" 2, TInt, i_ 3)); ("ANT_THETA", (Each "N_STD" 2, TFloat, f_ "0.0")); ("ANT_PHI", (Each "N_STD" 2, TFloat, f_ "0.0"));
   ("N_FEE", (Count, TInt, no_default));
   ("FEE_ID", (Each "N_FEE" 1, TText, t_ "UNK")); ("FEE_STAT", (Each "N_FEE" 1, TInt, i_ 3)); ("FEE_DESI", (Each "N_FEE" 1, TInt, i_ 1));
   ("FEE_GAI1", (Each "N_FEE" 1, TFloat, f_ "35.7")); ("FEE_GAI2", (Each "N_FEE" 1, TFloat, f_ "35.7"));
   ("FEE_ANT1", (Each "N_FEE" 1, TInt, fun _ i _ => NInt (2 * i - 1))); ("FEE_ANT2", (Each "N_FEE" 1, TInt, fun _ i _ => NInt (2 * i)));
   ("N_RPD", (Count, TInt, no_default));
   ("RPD_ID", (Each "N_RPD" 1, TText, t_ "UNK")); ("RPD_STAT", (Each "N_RPD" 1, TInt, i_ 3)); ("RPD_LENG", (Each "N_RPD" 1, TFloat, f_ "0.0"));
   ("RPD_VF", (EachOrAll "N_RPD", TFloat, f_ "83.0")); ("RPD_DD", (EachOrAll "N_RPD", TFloat, f_ "2.4"));
   ("RPD_A0", (EachOrAll "N_RPD", TFloat, f_ "0.00428")); ("RPD_A1", (EachOrAll "N_RPD", TFloat, f_ "0.00000"));
   ("RPD_FREF", (EachOrAll "N_RPD", TFloat, f_ "10e6")); ("RPD_STR", (EachOrAll "N_RPD", TFloat, f_ "1.0"));
   ("RPD_DESI", (Each "N_RPD" 1, TText, i_ 1)); ("RPD_ANT", (Each "N_RPD" 1, TInt, fun _ i _ => NInt i));
   ("N_SEP", (Count, TInt, no_default));
   ("SEP_CABL", (Each "N_SEP" 1, TText, t_ "UNK")); ("SEP_LENG", (Each "N_SEP" 1, TFloat, f_ "0.0")); ("SEP_DESI", (Each "N_SEP" 1, TInt, i_ 1));
   ("SEP_GAIN", (Each "N_SEP" 1, TFloat, f_ "0.0")); ("SEP_ANT", (Each "N_SEP" 1, TInt, fun _ i _ => NInt i));
   ("N_ARB", (Count, TInt, no_default)); ("N_ARBCH", (CountIn "N_ARB", TInt, no_default));
   ("ARB_ID", (Each "N_ARB" 1, TText, t_ "UNK")); ("ARB_SLOT", (Each "N_ARB" 1, TSlot, i_ 0)); ("ARB_DESI", (Each "N_ARB" 1, TInt, i_ 0));
   ("ARB_RACK", (Each "N_ARB" 1, TInt, i_ 0)); ("ARB_PORT", (Each "N_ARB" 1, TInt, i_ 0));
   ("ARB_STAT", (Grid "N_ARB" "N_ARBCH", TInt, i_ 3)); ("ARB_ANT", (Grid "N_ARB" "N_ARBCH", TInt, fun m i j => NInt ((i - 1) * m + j)));
   ("ARB_IN", (Grid "N_ARB" "N_ARBCH", TText, t_ "UNK")); ("ARB_OUT", (Grid "N_ARB" "N_ARBCH", TText, t_ "UNK"));
   ("N_SNAP", (Count, TInt, no_default)); ("N_SNAPCH", (CountIn "N_SNAP", TInt, no_default));
   ("SNAP_ID", (Each "N_SNAP" 1, TText, t_ "UNK")); ("SNAP_SLOT", (Each "N_SNAP" 1, TText, i_ 0)); ("SNAP_DESI", (Each "N_SNAP" 1, TInt, i_ 1));
   ("SNAP_STAT", (Grid "N_SNAP" "N_SNAPCH", TInt, i_ 3)); ("SNAP_INR", (Grid "N_SNAP" "N_SNAPCH", TText, t_ "UNK"));
   ("SNAP_INC", (Grid "N_SNAP" "N_SNAPCH", TText, t_ "UNK")); ("SNAP_ANT", (Grid "N_SNAP" "N_SNAPCH", TInt, fun m i j => NInt ((i - 1) * m + j)));
   ("N_SERVER", (Count, TInt, no_default));
   ("SERVER_ID", (Each "N_SERVER" 1, TText, t_ "UNK")); ("SERVER_SLOT", (Each "N_SERVER" 1, TText, t_ "UNK"));
   ("SERVER_STAT", (Each "N_SERVER" 1, TInt, i_ 3)); ("SERVER_DESI", (Each "N_SERVER" 1, TInt, i_ 1));
   ("N_DR", (Count, TInt, no_default));
   ("DR_STAT", (Each "N_DR" 1, TInt, i_ 0)); ("DR_ID", (Each "N_DR" 1, TText, t_ "UNK")); ("DR_SHLF", (Each "N_DR" 1, TInt, i_ 0));
   ("DR_PC", (Each "N_DR" 1, TText, t_ "UNK")); ("DR_NDP", (Each "N_DR" 1, TInt, i_ 0));
   ("ASP_FLT", (EachOrAll "N_STD", TInt, i_ (-1))); ("ASP_AT1", (EachOrAll "N_STD", TInt, i_ 0)); ("ASP_AT2", (EachOrAll "N_STD", TInt, i_ 0));
   ("ASP_AT3", (AllOnly "N_STD", TInt, i_ 0))]%string.
Fixpoint entry_of {A} (k : string) (l : list (string * A)) : option A :=
  match l with [] => None | (n, a) :: r => if String.eqb k n then Some a else entry_of k r end.

(** The last value given for a keyword and indices; a value given without indices is for all. *)
Fixpoint same_ids (a b : list Z) : bool := match a, b with [], [] => true | x :: a', y :: b' => (x =? y) && same_ids a' b' | _, _ => false end.
Definition about (k : string) (idx : list Z) (e : entry) : bool :=
  String.eqb (e_key e) k && (same_ids (e_ids e) idx || match e_ids e with [] => true | _ => false end).
Definition said (es : list entry) (k : string) (idx : list Z) : option val :=
  fold_left (fun acc e => if about k idx e then Some (e_val e) else acc) es None.
Definition declared (es : list entry) (n : string) : option Z := match said es n [] with Some (NInt z) => Some z | _ => None end.
Definition num (es : list entry) (n : string) : Z := match declared es n with Some z => z | None => 0 end.
(** The value that holds. *)
Definition value (es : list entry) (k : string) (idx : list Z) : val :=
  match said es k idx with
  | Some v => v
  | None => match entry_of k format with
            | Some (sh, _, d) => d (match sh with Grid _ c => num es c | _ => 0 end) (nth 0 idx 0) (nth 1 idx 0)
            | None => NInt 0
            end
  end.
Definition int_at (es : list entry) (k : string) (idx : list Z) : Z := match value es k idx with NInt z => z | _ => 0 end.
Definition text_at (es : list entry) (k : string) (idx : list Z) : str := match value es k idx with NText s => s | NFloat s => s | NInt _ => [] end.

(** A well-formed file: each entry, given the entries before it.  Sections are declared once and before their entries; unknown
    keywords may occur. *)
Definition typed (t : ty) (v : val) : bool :=
  match t, v with
  | TInt, NInt _ => true | TText, NText _ => true | TFloat, NFloat _ => true | TSlot, NInt _ => true
  | TSlot, NText s => match parse_int s with None => true | Some _ => false end
  | _, _ => false
  end.
Definition within (i n : Z) : bool := (1 <=? i) && (i <=? n).
Definition fits (done : list entry) (e : entry) : bool :=
  if String.eqb (e_key e) "FORMAT_VERSION" then match e_val e with NInt 10 => true | _ => false end
  else match entry_of (e_key e) format with
  | None => true
  | Some (sh, t, _) =>
      typed t (e_val e) &&
      match sh, e_ids e with
      | Scalar, [] => true
      | Count, [] => match e_val e, said done (e_key e) [] with NInt n, None => 0 <=? n | _, _ => false end
      | CountIn n, [] => match e_val e, said done (e_key e) [], declared done n with NInt m, None, Some _ => 0 <=? m | _, _, _ => false end
      | Each n m, [i] => match declared done n with Some k => within i (m * k) | None => false end
      | EachOrAll n, [i] => match declared done n with Some k => within i k | None => false end
      | EachOrAll n, [] => match declared done n with Some _ => true | None => false end
      | AllOnly n, [] => match declared done n with Some _ => true | None => false end
      | Grid n c, [i; j] => match declared done n, declared done c with Some k, Some m => within i k && within j m | _, _ => false end
      | _, _ => false
      end
  end.
Fixpoint well_formed (done es : list entry) : bool :=
  match es with [] => true | e :: r => fits done e && well_formed (done ++ [e]) r end.

(** An entry for something beyond the number declared. *)
Definition beyond (done : list entry) (e : entry) : Prop :=
  exists sh t d, entry_of (e_key e) format = Some (sh, t, d) /\ typed t (e_val e) = true /\
  match sh, e_ids e with
  | Each n m, [i] => exists k, declared done n = Some k /\ m * k < i
  | EachOrAll n, [i] => exists k, declared done n = Some k /\ k < i
  | Grid n c, [i; j] => exists k m, declared done n = Some k /\ declared done c = Some m /\ (k < i \/ (1 <= i /\ m < j))
  | _, _ => False
  end.

(** Everything the station needs is there. *)
Definition complete (es : list entry) : bool :=
  forallb (fun k => match said es k [] with Some _ => true | None => false end)
    ["STATION_ID"; "GEO_N"; "GEO_E"; "GEO_EL"; "N_STD"; "N_FEE"; "N_RPD"; "N_ARB"; "N_ARBCH"; "N_SNAP"; "N_SNAPCH"]%string && (1 <=? num es "N_STD").

Section Station.
  Variable es : list entry.
  Definition stands := num es "N_STD".
  Definition antennas := 2 * num es "N_STD".
  Definition is_in (i n : Z) : Prop := 1 <= i <= n.
  (** The antenna numbers the file gives: all exist, and no antenna is given twice in the same role. *)
  Definition fee_ant (port f : Z) : Z := if port =? 1 then int_at es "FEE_ANT1" [f] else int_at es "FEE_ANT2" [f].
  Record wired : Prop := mkWired {
    w_stand : forall a, is_in a antennas -> is_in (int_at es "ANT_STD" [a]) stands;
    w_fee : forall p f, (p = 1 \/ p = 2) -> is_in f (num es "N_FEE") -> is_in (fee_ant p f) antennas;
    w_fee1 : forall p f p' f', (p = 1 \/ p = 2) -> (p' = 1 \/ p' = 2) -> is_in f (num es "N_FEE") -> is_in f' (num es "N_FEE") ->
      fee_ant p f = fee_ant p' f' -> p = p' /\ f = f';
    w_rpd : forall r, is_in r (num es "N_RPD") -> is_in (int_at es "RPD_ANT" [r]) antennas;
    w_rpd1 : forall r r', is_in r (num es "N_RPD") -> is_in r' (num es "N_RPD") -> int_at es "RPD_ANT" [r] = int_at es "RPD_ANT" [r'] -> r = r';
    w_arb : forall b c, is_in b (num es "N_ARB") -> is_in c (num es "N_ARBCH") ->
      int_at es "ARB_ANT" [b; c] = 0 \/ (int_at es "ARB_ANT" [b; c] <= 512 /\ is_in (int_at es "ARB_ANT" [b; c]) antennas /\
        exists z, parse_int (text_at es "ARB_ID" [b]) = Some z) \/ 512 < int_at es "ARB_ANT" [b; c];
    w_arb1 : forall b c b' c', is_in b (num es "N_ARB") -> is_in c (num es "N_ARBCH") -> is_in b' (num es "N_ARB") -> is_in c' (num es "N_ARBCH") ->
      int_at es "ARB_ANT" [b; c] = int_at es "ARB_ANT" [b'; c'] -> 0 < int_at es "ARB_ANT" [b; c] <= 512 -> b = b' /\ c = c';
    w_snap : forall b c, is_in b (num es "N_SNAP") -> is_in c (num es "N_SNAPCH") -> is_in (int_at es "SNAP_ANT" [b; c]) antennas;
    w_snap1 : forall b c b' c', is_in b (num es "N_SNAP") -> is_in c (num es "N_SNAPCH") -> is_in b' (num es "N_SNAP") -> is_in c' (num es "N_SNAPCH") ->
      int_at es "SNAP_ANT" [b; c] = int_at es "SNAP_ANT" [b'; c'] -> b = b' /\ c = c' }.

  (** What the file says about one antenna. *)
  Definition on_stand (a : ant) (s : Z) : Prop :=
    st_id (a_stand a) = s /\ st_x (a_stand a) = text_at es "STD_LX" [s] /\ st_y (a_stand a) = text_at es "STD_LY" [s] /\
    st_z (a_stand a) = text_at es "STD_LZ" [s].
  Definition has_fee (a : ant) (p f : Z) : Prop :=
    a_port a = p /\ exists x, a_fee a = Some x /\ f_num x = f /\ f_id x = text_at es "FEE_ID" [f] /\
      f_gain1 x = text_at es "FEE_GAI1" [f] /\ f_gain2 x = text_at es "FEE_GAI2" [f] /\ f_status x = int_at es "FEE_STAT" [f].
  Definition has_cable (a : ant) (r : Z) : Prop :=
    exists c, a_cable a = Some c /\ c_id c = text_at es "RPD_ID" [r] /\ c_len c = text_at es "RPD_LENG" [r] /\ c_vf c = text_at es "RPD_VF" [r] /\
      c_dd c = text_at es "RPD_DD" [r] /\ c_a0 c = text_at es "RPD_A0" [r] /\ c_a1 c = text_at es "RPD_A1" [r] /\
      c_fref c = text_at es "RPD_FREF" [r] /\ c_str c = text_at es "RPD_STR" [r].
  Definition has_arx (a : ant) (b c : Z) : Prop :=
    exists x, a_arx a = Some x /\ parse_int (text_at es "ARB_ID" [b]) = Some (x_id x) /\ x_chan x = c /\
      x_asp x = (b - 1) * num es "N_ARBCH" + c /\ x_in x = text_at es "ARB_IN" [b; c] /\ x_out x = text_at es "ARB_OUT" [b; c].
  Definition has_digitizer (a : ant) (b c : Z) : Prop :=
    a_board a = b /\ a_dig a = (b - 1) * num es "N_SNAPCH" + c /\ a_input a = text_at es "SNAP_INR" [b; c].
  Record antenna_is (a : ant) : Prop := mkAntennaIs {
    d_stand : on_stand a (int_at es "ANT_STD" [a_id a]);
    d_pol : a_pol a = int_at es "ANT_ORIE" [a_id a];
    d_theta : a_theta a = text_at es "ANT_THETA" [a_id a];
    d_phi : a_phi a = text_at es "ANT_PHI" [a_id a];
    d_status : a_status a = int_at es "ANT_STAT" [a_id a];
    d_fee : forall p f, (p = 1 \/ p = 2) -> is_in f (num es "N_FEE") -> fee_ant p f = a_id a -> has_fee a p f;
    d_nofee : (forall p f, (p = 1 \/ p = 2) -> is_in f (num es "N_FEE") -> fee_ant p f <> a_id a) -> a_fee a = None;
    d_cable : forall r, is_in r (num es "N_RPD") -> int_at es "RPD_ANT" [r] = a_id a -> has_cable a r;
    d_nocable : (forall r, is_in r (num es "N_RPD") -> int_at es "RPD_ANT" [r] <> a_id a) -> a_cable a = None;
    d_arx : forall b c, is_in b (num es "N_ARB") -> is_in c (num es "N_ARBCH") -> int_at es "ARB_ANT" [b; c] = a_id a -> a_id a <= 512 -> has_arx a b c;
    d_noarx : (forall b c, is_in b (num es "N_ARB") -> is_in c (num es "N_ARBCH") -> int_at es "ARB_ANT" [b; c] <> a_id a) -> a_arx a = None;
    d_snap : forall b c, is_in b (num es "N_SNAP") -> is_in c (num es "N_SNAPCH") -> int_at es "SNAP_ANT" [b; c] = a_id a -> has_digitizer a b c;
    d_nosnap : (forall b c, is_in b (num es "N_SNAP") -> is_in c (num es "N_SNAPCH") -> int_at es "SNAP_ANT" [b; c] <> a_id a) ->
      a_board a = 0 /\ a_dig a = 0 /\ a_input a = [] }.
End Station.
(** The attenuation of a stand's signal relative to the least attenuated one, in half decibels: steps of 2 dB, 2 dB and 0.5 dB. *)
Definition least (es : list entry) (k : string) (m : Z) : Prop :=
  (exists s, is_in s (num es "N_STD") /\ int_at es k [s] = m) /\ forall s, is_in s (num es "N_STD") -> m <= int_at es k [s].
Definition attenuation (es : list entry) (s v : Z) : Prop :=
  exists m1 m2 m3, least es "ASP_AT1" m1 /\ least es "ASP_AT2" m2 /\ least es "ASP_AT3" m3 /\
    v = 4 * (int_at es "ASP_AT1" [s] - m1) + 4 * (int_at es "ASP_AT2" [s] - m2) + (int_at es "ASP_AT3" [s] - m3).
(** The names of the stations. *)
Definition station_names : list (string * string) := [("VL", "LWA1"); ("NA", "LWANA"); ("SV", "LWASV"); ("OV", "OVROLWA")]%string.
