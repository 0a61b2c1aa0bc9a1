(** What a UVFITS file is for: the integrations that went in come out again.
    Integrations, the calls that write them and what a data set says are those
    of FITS IDI files (S_Idi). *)
From Coq Require Import String.
From Coq Require Import List ZArith QArith Qabs Sorted Permutation Bool.
From Verif Require Import M_Uvfits S_Idi.
Import ListNotations.
Open Scope Z_scope.

Section Spec.
Context {V W U P X : Type} (E : sky V W U P).
Variable par : Q -> Q -> Q.
Notation integration := (@integration V W P).

(** A program that writes a file: the calls, then write() *)
Definition set_up (pols : list polarization) (freqs : list (list Q)) (antennas : list (Z * X)) (calls : list (@call V W P)) : writer V W P X * res unit :=
  let w := (new_writer Uv, Ok tt) in
  let w := then_ w (fun w => set_stokes w pols) in
  let w := fold_left (fun w b => then_ w (fun w => set_frequency w b)) freqs w in
  let w := then_ w (fun w => set_geometry w antennas) in
  fold_left (fun w c => then_ w (fun w => add_call w c)) calls w.
Definition write_uvfits (pols : list polarization) (freqs : list (list Q)) (antennas : list (Z * X)) (calls : list (@call V W P)) : res (ufits V U P X) :=
  let w := set_up pols freqs antennas calls in
  match snd w with Ok _ => snd (write_uv E par (fst w)) | Raise e => Raise e end.

(** The same integration with no weights given *)
Definition unweighted (i : integration) : integration := mkInt (i_time i) (i_length i) (i_source i) (i_rows i) (fun _ => false).

(** The day of the first integration, and the date of an integration as a file
    keeps it: the days since then, with that day as the zero point, and the rest *)
Definition first_day (l : list integration) : Q := match l with [] => 0%Q | i :: _ => day0 E (i_time i) end.
Definition kept_date (l : list integration) (i : integration) : Q :=
  (par (first_day l) (day0 E (i_time i) - first_day l) + par 0 (utcjd E (i_time i) - day0 E (i_time i)))%Q.

(** Later integrations have later dates in the file. *)
Definition dates_kept (l : list integration) : Prop :=
  StronglySorted (fun i j => i_time i < i_time j /\ kept_date l i < kept_date l j)%Q l.

(** Stands whose numbers have at most three digits *)
Definition short_numbers (stands : list Z) : Prop :=
  stands <> [] /\ NoDup stands /\ Forall (fun s => 0 <= s < 1000) stands.

(** What it takes for a list of integrations to be written as a file *)
Definition writable_uv (pols : list polarization) (codes : list Z) (width : Q) (nchan : nat) (freq : list Q)
    (antennas : list (Z * X)) (l : list integration) (calls : list (@call V W P)) : Prop :=
  axis codes /\ names_axis pols codes /\ regular width nchan [freq] /\ short_numbers (map fst antennas) /\ l <> [] /\
  Forall (complete (map fst antennas) (length codes) (Z.of_nat nchan)) l /\ same_layout l /\ one_position_per_name E l /\
  dates_kept l /\ calls_of codes l calls.

(** One group of a file *)
Record grow := mkGrow { g_bl : Z; g_date : Q; g_day : Q; g_int : Q; g_uvw : U; g_src : Z; g_vis : list V }.
Definition groups_of (l : list grow) : groups V U :=
  mkGr (map g_bl l) (map g_date l) (map g_day l) (map g_int l) (map g_uvw l) (map g_src l) (map g_vis l).
Definition g_jd (g : grow) : Q := (g_date g + g_day g)%Q.

(** The two stands of a baseline number of UVFITS: 256 a + b when both are below
    256, and 65536 + 2048 a + b otherwise *)
Definition baseline_of (b : Z) (s : Z * Z) : Prop :=
  0 <= fst s < 2048 /\ 0 <= snd s < 2048 /\
  ((fst s < 256 /\ snd s < 256 /\ b = 256 * fst s + snd s) \/ ((256 <= fst s \/ 256 <= snd s) /\ b = 65536 + 2048 * fst s + snd s)).
(** Groups sorted by time, then by the numbers of their stands *)
Definition time_stands_order (l : list grow) : Prop :=
  StronglySorted (fun a b => (g_jd a < g_jd b)%Q \/
    ((g_jd a == g_jd b)%Q /\ exists s t, baseline_of (g_bl a) s /\ baseline_of (g_bl b) t /\ (fst s < fst t \/ (fst s = fst t /\ snd s < snd t)))) l.
(** Groups sorted by time, then by baseline *)
Definition tb_order (l : list grow) : Prop :=
  StronglySorted (fun a b => (g_jd a < g_jd b)%Q \/ ((g_jd a == g_jd b)%Q /\ g_bl a < g_bl b)) l.
End Spec.
