(** Specification vocabulary for C126-C130: what a source catalog holds, and what the catalog files look like. *)
From Coq Require Import List ZArith Bool.
From Verif Require Import M_Cat.
Import ListNotations.
Open Scope Z_scope.

(** A source: its name, its other names, and its position as right ascension (hours, minutes, seconds) and declination
    (negative?, degrees, minutes, seconds). *)
Definition coords (F : floats) : Type := (Z * Z * flt F) * (bool * Z * Z * flt F).
Record source (F : floats) := mkSrc { s_name : option str; s_also : list str; s_at : coords F }.
Arguments mkSrc {F}. Arguments s_name {F}. Arguments s_also {F}. Arguments s_at {F}.
Definition src_entry {F} (s : source F) : entry F :=
  let '((h, m, x), (n, d, dm, dx)) := s_at s in mkE (s_name s) (mkHms h m x, mkDms n d dm dx) (map Some (s_also s)).

(** The last source of the list that satisfies a predicate. *)
Inductive last_with {F} (P : source F -> Prop) : list (source F) -> option (source F) -> Prop :=
| lw_none : forall l, Forall (fun s => ~ P s) l -> last_with P l None
| lw_some : forall a s b, P s -> Forall (fun s => ~ P s) b -> last_with P (a ++ s :: b) (Some s).
(** What a catalog of the sources answers for a name: the last source with this primary name; without one, the last source that
    lists it as an alias. *)
Definition answers {F} (l : list (source F)) (k : key) (o : option (source F)) : Prop :=
  exists p, last_with (fun s => s_name s = k) l p /\
    match p with Some s => o = Some s | None => last_with (fun s => In k (map Some (s_also s))) l o end.
(** The catalog holds exactly the sources: for every name, and the primary names are the ones iterated over, each once. *)
Definition holds {F} (c : catalog F) (l : list (source F)) : Prop :=
  (forall k, exists o, answers l k o /\ lookup c k = option_map src_entry o) /\
  NoDup (iterate c) /\ (forall k, In k (iterate c) <-> exists s, In s l /\ s_name s = k).

(** A position astro.hms, astro.dms and astro.equ_posn accept. *)
Definition time_ok {F} (h m : Z) (x : flt F) : Prop := 0 <= h <= 23 /\ 0 <= m <= 59 /\ sec_bad F x = false.
Definition angle_ok {F} (d m : Z) (x : flt F) : Prop := 0 <= d <= 359 /\ 0 <= m <= 59 /\ sec_bad F x = false.
Definition coords_ok {F} (c : coords F) : Prop :=
  let '((h, m, x), (n, d, dm, dx)) := c in
  time_ok h m x /\ angle_ok d dm dx /\ posn_bad F h m x n d dm dx = false.

(** ** The LWA file: fixed columns. *)
Definition no_space (s : str) : Prop := Forall (fun c => is_space c = false) s.
Definition all_space (s : str) : Prop := Forall (fun c => is_space c = true) s.
(** Two digits. *)
Definition two (n : Z) : str := [48 + n / 10; 48 + n mod 10].
Definition blanks (n : nat) : str := repeat 32 n.
(** [lwa_source l s]: the line [l] is the entry of the source [s]: the name in eight columns, HH MM SS.SS, sDD MM SS.S, the aliases. *)
Definition lwa_source {F} (l : str) (s : source F) : Prop :=
  exists name h m xs x sg n d dm dxs dx aliases pad,
    s_name s = Some name /\ s_also s = aliases /\ s_at s = ((h, m, x), (n, d, dm, dx)) /\
    l = name ++ blanks (8 - length name) ++ [32] ++ two h ++ [32] ++ two m ++ [32] ++ xs ++ [32] ++ [sg] ++ two d ++ [32] ++ two dm
        ++ [32] ++ dxs ++ [32; 32] ++ flat_map (fun a => a ++ [32]) aliases ++ pad ++ [10] /\
    (length name <= 8)%nat /\ name <> [] /\ no_space name /\ hd 0 name <> 35 /\
    length xs = 5%nat /\ to_float F xs = Some x /\ length dxs = 4%nat /\ to_float F dxs = Some dx /\
    (sg = 45 /\ n = true \/ (sg = 32 \/ sg = 43) /\ n = false) /\
    0 <= d <= 99 /\ coords_ok (s_at s) /\
    Forall (fun a => a <> [] /\ no_space a) aliases /\ all_space pad.
(** A comment or a blank line. *)
Definition lwa_skipped (l : str) : Prop := (exists r, l = 35 :: r) \/ (l <> [] /\ all_space l).
(** The file describes the sources, in this order. *)
Inductive lwa_file {F} : list str -> list (source F) -> Prop :=
| lf_nil : lwa_file [] []
| lf_skip : forall l ls ss, lwa_skipped l -> lwa_file ls ss -> lwa_file (l :: ls) ss
| lf_src : forall l s ls ss, lwa_source l s -> lwa_file ls ss -> lwa_file (l :: ls) (s :: ss).

(** ** The PSRCAT file: keyword lines in any order, a record ends with a line that starts with "@-". *)
(** The line [l] gives the value [v] to the keyword [k]. *)
Definition says (k v l : str) : Prop :=
  exists gap rest, l = k ++ gap ++ v ++ rest /\ all_space gap /\ gap <> [] /\ v <> [] /\ no_space v /\
    (rest = [] \/ exists c r, rest = c :: r /\ is_space c = true).
(** A text of digits and its value. *)
Inductive digit_text : str -> Z -> Prop :=
| dt_one : forall d, 0 <= d <= 9 -> digit_text [48 + d] d
| dt_more : forall t n d, digit_text t n -> 0 <= d <= 9 -> digit_text (t ++ [48 + d]) (10 * n + d).
(** HH:MM:SS or HH:MM. *)
Definition seconds_text {F} (t : option str) (x : flt F) : Prop :=
  match t with
  | Some xs => to_float F xs = Some x /\ no_space xs /\ ~ In 58 xs
  | None => x = f_zero F
  end.
Definition with_seconds (t : str) (xs : option str) : str := match xs with Some xs => t ++ [58] ++ xs | None => t end.
Definition ra_text {F} (t : str) (h m : Z) (x : flt F) : Prop :=
  exists ht mt xs, t = with_seconds (ht ++ [58] ++ mt) xs /\ digit_text ht h /\ digit_text mt m /\ seconds_text xs x.
(** sDD:MM:SS or sDD:MM. *)
Definition dec_text {F} (t : str) (n : bool) (d m : Z) (x : flt F) : Prop :=
  exists sg dt mt xs, t = with_seconds (sg ++ dt ++ [58] ++ mt) xs /\ (sg = [45] /\ n = true \/ (sg = [] \/ sg = [43]) /\ n = false) /\
    digit_text dt d /\ digit_text mt m /\ seconds_text xs x.
(** A declination that is not written in two or three parts. *)
Definition odd_text (t : str) : Prop := no_space t /\ (~ In 58 t \/ exists a b c d, t = a ++ [58] ++ b ++ [58] ++ c ++ [58] ++ d /\ ~ In 58 a /\ ~ In 58 b /\ ~ In 58 c).

(** A pulsar as its record gives it: any of the four values may be missing. *)
Inductive decl (F : floats) := DecAt (n : bool) (d m : Z) (x : flt F) | DecOdd.
Arguments DecAt {F}. Arguments DecOdd {F}.
Record pulsar (F : floats) := mkPsr { u_b : option str; u_j : option str; u_ra : option (Z * Z * flt F); u_dec : option (decl F) }.
Arguments mkPsr {F}. Arguments u_b {F}. Arguments u_j {F}. Arguments u_ra {F}. Arguments u_dec {F}.
Definition KB : str := [80; 83; 82; 66].  (* PSRB *)
Definition KJ : str := [80; 83; 82; 74].  (* PSRJ *)
Definition KRA : str := [82; 65; 74].     (* RAJ *)
Definition KDEC : str := [68; 69; 67; 74]. (* DECJ *)
Definition KEND : str := [64; 45].        (* @- *)
Definition begins (k l : str) : Prop := exists r, l = k ++ r.
(** A line of some other keyword. *)
Definition other_line (l : str) : Prop := ~ begins KB l /\ ~ begins KJ l /\ ~ begins KRA l /\ ~ begins KDEC l /\ ~ begins KEND l.
Definition ra_line {F} (r : Z * Z * flt F) (l : str) : Prop := let '(h, m, x) := r in exists t, ra_text t h m x /\ says KRA t l.
Definition dec_line {F} (d : decl F) (l : str) : Prop :=
  match d with DecAt n d m x => exists t, dec_text t n d m x /\ says KDEC t l | DecOdd => exists t, t <> [] /\ odd_text t /\ says KDEC t l end.
(** A value is given by one or more lines of the record, all of which agree; a missing one by none. *)
Definition line_of {F} (u : pulsar F) (l : str) : Prop :=
  other_line l \/ (exists v, u_b u = Some v /\ says KB v l) \/ (exists v, u_j u = Some v /\ says KJ v l) \/
  (exists r, u_ra u = Some r /\ ra_line r l) \/ (exists d, u_dec u = Some d /\ dec_line d l).
Definition describes {F} (b : list str) (u : pulsar F) : Prop :=
  Forall (line_of u) b /\
  (forall v, u_b u = Some v -> Exists (says KB v) b) /\ (forall v, u_j u = Some v -> Exists (says KJ v) b) /\
  (forall r, u_ra u = Some r -> Exists (ra_line r) b) /\ (forall d, u_dec u = Some d -> Exists (dec_line d) b).
(** The source a pulsar becomes: none without a usable right ascension and declination. *)
Inductive pulsar_source {F} : pulsar F -> option (source F) -> Prop :=
| ps_b : forall b j h m x n d dm dx, coords_ok (F := F) ((h, m, x), (n, d, dm, dx)) ->
    pulsar_source (mkPsr (Some b) j (Some (h, m, x)) (Some (DecAt n d dm dx)))
                  (Some (mkSrc (Some b) (match j with Some j => [j] | None => [] end) ((h, m, x), (n, d, dm, dx))))
| ps_j : forall j h m x n d dm dx, coords_ok (F := F) ((h, m, x), (n, d, dm, dx)) ->
    pulsar_source (mkPsr None j (Some (h, m, x)) (Some (DecAt n d dm dx))) (Some (mkSrc j [] ((h, m, x), (n, d, dm, dx))))
| ps_no_ra : forall b j d, pulsar_source (mkPsr b j None d) None
| ps_no_dec : forall b j r, pulsar_source (mkPsr b j r None) None
| ps_odd : forall b j r, pulsar_source (mkPsr b j r (Some DecOdd)) None
| ps_bad_ra : forall b j h m x d, ~ time_ok (F := F) h m x -> pulsar_source (mkPsr b j (Some (h, m, x)) d) None
| ps_bad_dec : forall b j r n d m x, ~ angle_ok (F := F) d m x -> pulsar_source (mkPsr b j r (Some (DecAt n d m x))) None.
(** The file is the records of the pulsars, each ended by a line that begins with "@-", and one more record that is not ended. *)
Inductive psr_file {F} : list str -> list (option (source F)) -> Prop :=
| pf_end : forall tail u, describes (F := F) tail u -> psr_file tail []
| pf_rec : forall b u o e r ss, describes b u -> pulsar_source u o -> begins KEND e -> psr_file r ss -> psr_file (b ++ e :: r) (o :: ss).
Fixpoint kept {A} (l : list (option A)) : list A := match l with [] => [] | Some a :: r => a :: kept r | None :: r => kept r end.

(** ** The factory. *)
Definition FACTORY_NAMES : list str :=
  [[76; 87; 65]; [80; 83; 82]; [80; 75; 83]; [80; 75; 83; 57; 48]; [51; 67]; [52; 67]; [50; 70; 71; 76]; [51; 70; 71; 76];
   [52; 70; 71; 76]; [52; 70; 71; 76; 45; 68; 82; 52]].

(** ** For the examples: seconds are kept as their text. *)
Definition exF : floats :=
  mkF str (fun s => if forallb (fun c => is_digit c || (c =? 46)) s then match s with [] => None | _ => Some s end else None) [48]
      (fun s => match s with c :: _ => negb (c <? 54) | [] => false end) (fun _ _ _ _ d _ _ => 90 <? d).
(** "TauA     05 34 31.95  22 00 52.1  3C144 M1 \n" and "OriA     05 35 17.30 -05 23 28.0  \n". *)
Definition ex_tau : str := [84; 97; 117; 65; 32; 32; 32; 32; 32; 48; 53; 32; 51; 52; 32; 51; 49; 46; 57; 53; 32; 32; 50; 50; 32; 48; 48; 32; 53; 50; 46; 49; 32; 32; 51; 67; 49; 52; 52; 32; 77; 49; 32; 10].
Definition ex_ori : str := [79; 114; 105; 65; 32; 32; 32; 32; 32; 48; 53; 32; 51; 53; 32; 49; 55; 46; 51; 48; 32; 45; 48; 53; 32; 50; 51; 32; 50; 56; 46; 48; 32; 32; 10].
Definition src_tau : source exF := mkSrc (F := exF) (Some [84; 97; 117; 65]) [[51; 67; 49; 52; 52]; [77; 49]] ((5, 34, [51; 49; 46; 57; 53]), (false, 22, 0, [53; 50; 46; 49])).
Definition src_ori : source exF := mkSrc (F := exF) (Some [79; 114; 105; 65]) [] ((5, 35, [49; 55; 46; 51; 48]), (true, 5, 23, [50; 56; 46; 48])).
(** "PSRJ J1 x\n", "PSRB B1\n", "RAJ 05:34:3\n", "DECJ -01:30\n", "DECJ 22\n", "@---\n", "P0 1\n". *)
Definition ex_j : str := [80; 83; 82; 74; 32; 74; 49; 32; 120; 10].
Definition ex_b : str := [80; 83; 82; 66; 32; 66; 49; 10].
Definition ex_ra : str := [82; 65; 74; 32; 48; 53; 58; 51; 52; 58; 51; 10].
Definition ex_dec : str := [68; 69; 67; 74; 32; 45; 48; 49; 58; 51; 48; 10].
Definition ex_dec2 : str := [68; 69; 67; 74; 32; 50; 50; 10].
Definition ex_end : str := [64; 45; 45; 45; 10].
Definition ex_p0 : str := [80; 48; 32; 49; 10].
(** "RAJ 5\n", "RAJ x:00\n". *)
Definition ex_ra1 : str := [82; 65; 74; 32; 53; 10].
Definition ex_rax : str := [82; 65; 74; 32; 120; 58; 48; 48; 10].
Definition ex_psr : pulsar exF := mkPsr (F := exF) (Some [66; 49]) (Some [74; 49]) (Some (5, 34, [51])) (Some (DecAt (F := exF) true 1 30 [48])).
Definition ex_psr2 : pulsar exF := mkPsr (F := exF) None (Some [74; 49]) (Some (5, 34, [51])) (Some DecOdd).
Definition src_psr : source exF := mkSrc (F := exF) (Some [66; 49]) [[74; 49]] ((5, 34, [51]), (true, 1, 30, [48])).

(** ** C129: lines out of format. *)
(** The columns of a line. *)
Definition columns (a b : nat) (l : str) : str := firstn (b - a) (skipn a l).
(** A line that is no comment, whose fields are not all numbers although it is long enough to hold the sign. *)
Definition lwa_unreadable (F : floats) (l : str) : Prop :=
  (22 <= length l)%nat /\ ~ lwa_skipped l /\
  (parse_int (columns 9 11 l) = None \/ parse_int (columns 12 14 l) = None \/ to_float F (columns 15 20 l) = None \/
   parse_int (columns 22 24 l) = None \/ parse_int (columns 25 27 l) = None \/ to_float F (columns 28 32 l) = None).
