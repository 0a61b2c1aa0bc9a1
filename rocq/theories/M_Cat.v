(** Model of lsl/catalog.py: the catalog as a mapping, the LWA and PSRCAT file readers and the catalog factory;
    with the constructors of lsl/astro.py the readers use.
    Simplification: floats are an abstract type with the operations the code applies to them (a value of [floats]). *)
From Coq Require Import List ZArith Bool.
From Verif Require Export M_Py M_Str.
Import ListNotations.
Open Scope Z_scope.

(** float(s) (None: ValueError), 0.0, "seconds < 0.0 or seconds >= 60.0" (astro.py 93, 216), and the range checks of
    astro.equ_posn (astro.py 955-958, 973-976) on an hms and a dms. *)
Record floats := mkF { flt : Type; to_float : str -> option flt; f_zero : flt; sec_bad : flt -> bool;
                       posn_bad : Z -> Z -> flt -> bool -> Z -> Z -> flt -> bool }.

(** str.split(): the maximal runs of non-space characters. *)
Fixpoint words_from (cur : str) (s : str) : list str :=
  match s with
  | [] => match cur with [] => [] | _ => [rev cur] end
  | c :: r => if is_space c then match cur with [] => words_from [] r | _ => rev cur :: words_from [] r end
              else words_from (c :: cur) r
  end.
Definition words (s : str) : list str := words_from [] s.
(** str.isspace. *)
Definition isspace (s : str) : bool := match s with [] => false | _ => forallb is_space s end.
(** s[a:b] for 0 <= a <= b. *)
Definition slice (a b : nat) (s : str) : str := firstn (b - a) (skipn a s).

(** astro.hms (astro.py 196-218) and astro.dms (68-95) objects. *)
Record hms (F : floats) := mkHms { h_hours : Z; h_minutes : Z; h_seconds : flt F }.
Record dms (F : floats) := mkDms { d_neg : bool; d_degrees : Z; d_minutes : Z; d_seconds : flt F }.
Arguments mkHms {F}. Arguments mkDms {F}.
Arguments h_hours {F}. Arguments h_minutes {F}. Arguments h_seconds {F}.
Arguments d_neg {F}. Arguments d_degrees {F}. Arguments d_minutes {F}. Arguments d_seconds {F}.
Definition mk_hms {F} (h m : Z) (s : flt F) : res (hms F) :=
  if (h <? 0) || (23 <? h) then Raise ValueError
  else if (m <? 0) || (59 <? m) then Raise ValueError
  else if sec_bad F s then Raise ValueError else Ok (mkHms h m s).
Definition mk_dms {F} (n : bool) (d m : Z) (s : flt F) : res (dms F) :=
  if (d <? 0) || (359 <? d) then Raise ValueError
  else if (m <? 0) || (59 <? m) then Raise ValueError
  else if sec_bad F s then Raise ValueError else Ok (mkDms n d m s).
(** astro.equ_posn(ra, dec) (astro.py 902-916) through transform.CelestialPosition (transform.py 497-506).
    Simplification: the position is kept as the two angles, not converted to degrees. *)
Definition equ_posn {F} (ra : hms F) (dec : dms F) : res (hms F * dms F) :=
  if posn_bad F (h_hours ra) (h_minutes ra) (h_seconds ra) (d_neg dec) (d_degrees dec) (d_minutes dec) (d_seconds dec)
  then Raise ValueError else Ok (ra, dec).

(** Dictionary keys: a name, or None (which PSR_Catalog can use as a name). *)
Definition key := option str.
Definition key_eqb (a b : key) : bool :=
  match a, b with Some x, Some y => str_eqb x y | None, None => true | _, _ => false end.
(** dict lookup and assignment; insertion order. *)
Fixpoint kget {A} (n : key) (d : list (key * A)) : option A :=
  match d with [] => None | (m, a) :: r => if key_eqb m n then Some a else kget n r end.
Fixpoint kput {A} (n : key) (a : A) (d : list (key * A)) : list (key * A) :=
  match d with [] => [(n, a)] | (m, b) :: r => if key_eqb m n then (m, a) :: r else (m, b) :: kput n a r end.

(** CatalogEntry (45-52).  Simplification: an entry is a value with its final alias list: both readers fill the list
    while they handle one source and never touch the entry again. *)
Record entry (F : floats) := mkE { e_name : key; e_pos : hms F * dms F; e_alias : list key }.
Arguments mkE {F}. Arguments e_name {F}. Arguments e_pos {F}. Arguments e_alias {F}.
(** Catalog (76-88): source_map and alias_map. *)
Record catalog (F : floats) := mkCat { source_map : list (key * entry F); alias_map : list (key * entry F) }.
Arguments mkCat {F}. Arguments source_map {F}. Arguments alias_map {F}.
Definition new_catalog {F} : catalog F := mkCat [] [].
(** lookup (139-157). *)
Definition lookup {F} (c : catalog F) (k : key) : option (entry F) :=
  match kget k (source_map c) with Some e => Some e | None => kget k (alias_map c) end.
(** __getitem__ (121-130). *)
Definition getitem {F} (c : catalog F) (k : key) : res (entry F) :=
  match lookup c k with None => Raise KeyError | Some e => Ok e end.
(** Mapping.__contains__, which Catalog inherits: whether self[key] raises KeyError. *)
Definition contains_key {F} (c : catalog F) (k : key) : bool :=
  match getitem c k with Ok _ => true | Raise _ => false end.
(** __iter__ (132-137) and __len__ (114-119). *)
Definition iterate {F} (c : catalog F) : list key := map fst (source_map c).
Definition cat_len {F} (c : catalog F) : Z := Z.of_nat (length (source_map c)).

(** self.source_map[name] = entry, then self.alias_map[alias] = entry for each alias (209-216, 318-325). *)
Definition add_entry {F} (c : catalog F) (e : entry F) : catalog F :=
  mkCat (kput (e_name e) e (source_map c)) (fold_left (fun m a => kput a e m) (e_alias e) (alias_map c)).

(** LWA_Catalog.parse_file, one line (183-216): Ok None for a skipped line. *)
Definition lwa_line (F : floats) (l : str) : res (option (entry F)) :=
  if starts_with [35] l || isspace l then Ok None
  else
    match parse_int (slice 9 11 l) with None => Raise RuntimeError | Some rh =>
    match parse_int (slice 12 14 l) with None => Raise RuntimeError | Some rm =>
    match to_float F (slice 15 20 l) with None => Raise RuntimeError | Some rs =>
    match nth_error l 21 with None => Raise IndexError | Some sg =>
    match parse_int (slice 22 24 l) with None => Raise RuntimeError | Some dd =>
    match parse_int (slice 25 27 l) with None => Raise RuntimeError | Some dm =>
    match to_float F (slice 28 32 l) with None => Raise RuntimeError | Some ds =>
      let name := rstrip (slice 0 8 l) in
      bind (mk_hms rh rm rs) (fun ra =>
      bind (mk_dms (sg =? 45) dd dm ds) (fun dec =>
      bind (equ_posn ra dec) (fun p =>
      Ok (Some (mkE (Some name) p (map Some (words (skipn 34 l))))))))
    end end end end end end end.
(** LWA_Catalog.parse_file (173-216) over the lines of the file. *)
Fixpoint lwa_parse (F : floats) (ls : list str) (c : catalog F) : res (catalog F) :=
  match ls with
  | [] => Ok c
  | l :: r => bind (lwa_line F l) (fun o => lwa_parse F r (match o with Some e => add_entry c e | None => c end))
  end.

(** The local variables of PSR_Catalog.parse_file (243-247).  [p_last]: raHours, raMinutes and raSeconds, which keep their values
    from one source to the next and are unbound before the first RAJ line. *)
Record psrst (F : floats) := mkPS { p_b : key; p_j : key; p_ra : option (hms F); p_dec : option (dms F); p_bad : bool;
                                    p_last : option (Z * Z * flt F); p_cat : catalog F }.
Arguments mkPS {F}. Arguments p_b {F}. Arguments p_j {F}. Arguments p_ra {F}. Arguments p_dec {F}.
Arguments p_bad {F}. Arguments p_last {F}. Arguments p_cat {F}.
Definition psr_init {F} : psrst F := mkPS None None None None false None new_catalog.
Definition kw_psrb : str := [80; 83; 82; 66].
Definition kw_psrj : str := [80; 83; 82; 74].
Definition kw_raj : str := [82; 65; 74].
Definition kw_decj : str := [68; 69; 67; 74].
Definition kw_end : str := [64; 45].
(** line.split()[1]. *)
Definition word1 (l : str) : res str := match nth_error (words l) 1 with Some w => Ok w | None => Raise IndexError end.
(** int(s), float(s). *)
Definition as_int (s : str) : res Z := match parse_int s with Some n => Ok n | None => Raise ValueError end.
Definition as_float (F : floats) (s : str) : res (flt F) := match to_float F s with Some x => Ok x | None => Raise ValueError end.
(** The RAJ branch (253-271). *)
Definition psr_raj {F} (l : str) (s : psrst F) : res (psrst F) :=
  bind (word1 l) (fun rastr =>
  bind (match split 58 rastr with
        | [a; b; c] => bind (as_int a) (fun h => bind (as_int b) (fun m => bind (as_float F c) (fun x => Ok ((h, m, x), p_bad s))))
        | [a; b] => bind (as_int a) (fun h => bind (as_int b) (fun m => Ok ((h, m, f_zero F), p_bad s)))
        | _ => match p_last s with None => Raise NameError | Some v => Ok (v, true) end
        end) (fun r =>
  let '((h, m, x), bad) := r in
  match mk_hms h m x with
  | Ok ra => Ok (mkPS (p_b s) (p_j s) (Some ra) (p_dec s) bad (Some (h, m, x)) (p_cat s))
  | Raise _ => Ok (mkPS (p_b s) (p_j s) (p_ra s) (p_dec s) true (Some (h, m, x)) (p_cat s))
  end)).
(** The DECJ branch (272-296); the sign is taken off the degrees field (284-288). *)
Definition dec_fields {F} (a : str) (b : str) (x : res (flt F)) : res (bool * Z * Z * flt F) :=
  let neg := starts_with [45] a in
  bind (as_int (if neg then skipn 1 a else a)) (fun d => bind (as_int b) (fun m => bind x (fun x => Ok (neg, d, m, x)))).
Definition psr_decj {F} (l : str) (s : psrst F) : res (psrst F) :=
  bind (word1 l) (fun decstr =>
  let finish (r : res (bool * Z * Z * flt F)) :=
    bind r (fun v => let '(n, d, m, x) := v in
    match mk_dms n d m x with
    | Ok dec => Ok (mkPS (p_b s) (p_j s) (p_ra s) (Some dec) (p_bad s) (p_last s) (p_cat s))
    | Raise _ => Ok (mkPS (p_b s) (p_j s) (p_ra s) (p_dec s) true (p_last s) (p_cat s))
    end) in
  match split 58 decstr with
  | [a; b; c] => finish (dec_fields a b (as_float F c))
  | [a; b] => finish (dec_fields a b (Ok (f_zero F)))
  | _ => Ok (mkPS (p_b s) (p_j s) (p_ra s) (p_dec s) true (p_last s) (p_cat s))
  end).
(** The '@-' branch (298-333): the debug messages are not modelled. *)
Definition psr_end {F} (s : psrst F) : res (psrst F) :=
  let '(name, alias) := match p_b s with Some b => (Some b, p_j s) | None => (p_j s, None) end in
  bind (match p_ra s, p_dec s with
        | Some ra, Some dec =>
            if p_bad s then Ok (p_cat s)
            else bind (equ_posn ra dec) (fun p =>
                 Ok (add_entry (p_cat s) (mkE name p (match alias with Some a => [Some (rstrip a)] | None => [] end))))
        | _, _ => Ok (p_cat s)
        end) (fun c =>
  Ok (mkPS None None None None false (p_last s) c)).
(** One line (248-333).  The tests are made one after the other in the code; no line passes two of them. *)
Definition psr_line {F} (l : str) (s : psrst F) : res (psrst F) :=
  if starts_with kw_psrb l then bind (word1 l) (fun w => Ok (mkPS (Some w) (p_j s) (p_ra s) (p_dec s) (p_bad s) (p_last s) (p_cat s)))
  else if starts_with kw_psrj l then bind (word1 l) (fun w => Ok (mkPS (p_b s) (Some w) (p_ra s) (p_dec s) (p_bad s) (p_last s) (p_cat s)))
  else if starts_with kw_raj l then psr_raj l s
  else if starts_with kw_decj l then psr_decj l s
  else if starts_with kw_end l then psr_end s
  else Ok s.
(** PSR_Catalog.parse_file (234-333) over the lines of the file. *)
Fixpoint psr_lines {F} (ls : list str) (s : psrst F) : res (psrst F) :=
  match ls with [] => Ok s | l :: r => bind (psr_line l s) (psr_lines r) end.
Definition psr_parse (F : floats) (ls : list str) : res (catalog F) := bind (psr_lines ls psr_init) (fun s => Ok (p_cat s)).

(** CatalogFactory (677-722).  An instance is identified by the number of the construction that made it; [outcome] says for each
    construction whether the class's constructor raises. *)
Record factory := mkFac { instances : list (str * nat); attempts : list str }.
Definition new_factory : factory := mkFac [] [].
(** catalog_class_map (684-696): LWA PSR PKS PKS90 3C 4C 2FGL 3FGL 4FGL 4FGL-DR4. *)
Definition class_names : list str :=
  [[76; 87; 65]; [80; 83; 82]; [80; 75; 83]; [80; 75; 83; 57; 48]; [51; 67]; [52; 67]; [50; 70; 71; 76]; [51; 70; 71; 76];
   [52; 70; 71; 76]; [52; 70; 71; 76; 45; 68; 82; 52]].
Fixpoint find_instance (n : str) (d : list (str * nat)) : option nat :=
  match d with [] => None | (m, a) :: r => if str_eqb m n then Some a else find_instance n r end.
(** get_catalog (701-722). *)
Definition get_catalog (outcome : nat -> option exn) (n : str) (f : factory) : res nat * factory :=
  if negb (existsb (str_eqb n) class_names) then (Raise ValueError, f)
  else match find_instance n (instances f) with
       | Some i => (Ok i, f)
       | None => let i := length (attempts f) in
                 match outcome i with
                 | Some e => (Raise e, mkFac (instances f) (attempts f ++ [n]))
                 | None => (Ok i, mkFac ((n, i) :: instances f) (attempts f ++ [n]))
                 end
       end.
(** A session: the requests one after the other. *)
Fixpoint session (outcome : nat -> option exn) (ns : list str) (f : factory) : list (str * res nat) * factory :=
  match ns with
  | [] => ([], f)
  | n :: r => let '(o, f) := get_catalog outcome n f in let '(os, f) := session outcome r f in ((n, o) :: os, f)
  end.
