(** What a valid session is. *)
From Coq Require Import Ascii String.
From Coq Require Import List ZArith Bool QArith.
From Verif Require Import M_Str M_Sdf.
Import ListNotations.
Open Scope Z_scope.

(** The settings by stand: one for each of 256, in the range of the hardware (-1: leave it). *)
Definition good_settings (o : obs) : Prop :=
  (256 <= length (o_fee o) /\ 256 <= length (o_flt o) /\ 256 <= length (o_at1 o) /\ 256 <= length (o_at2 o) /\ 256 <= length (o_at3 o))%nat /\
  (forall f, In f (o_fee o) -> (-1 <= fst f <= 1) /\ (-1 <= snd f <= 1)) /\
  (forall f, In f (o_flt o) -> -1 <= f <= 7) /\ (forall a, In a (o_at1 o) -> -1 <= a <= 15) /\
  (forall a, In a (o_at2 o) -> -1 <= a <= 15) /\ (forall a, In a (o_at3 o) -> -1 <= a <= 31).
(** A tuning of a beam (in units of 196 MHz / 2^32): 10.15 to 88 MHz; the second one may be off. *)
Definition good_tuning (f : Z) : Prop := 222417950 <= f <= 1928352663.
Definition good_step (radec : bool) (p : bstep) : Prop :=
  p_radec p = radec /\ 5 <= p_dur p /\ good_tuning (p_f1 p) /\ (good_tuning (p_f2 p) \/ p_f2 p = 0) /\
  match p_spec p with Some (d, g) => length d = 512%nat /\ length g = 256%nat | None => True end.
Definition good_mode (visible : obs -> bool) (o : obs) : Prop :=
  match o_setup o with
  | TBT n => n <= 392000000
  | TBS f1 f => 1 <= o_dur o /\ 65739295 <= f1 <= 2037918156 /\ f = 8
  | TRK _ f1 f2 f _ => 1 <= o_dur o /\ good_tuning f1 /\ (good_tuning f2 \/ f2 = 0) /\ 1 <= f <= 7 /\ visible o = true
  | STEPPED f rd ss => 1 <= f <= 7 /\ (1 <= length ss <= 1024)%nat /\ Forall (good_step rd) ss /\ visible o = true
  end.
(** Less than 10 TB. *)
Definition fits_drsu (b : Q) : Prop := (b < inject_Z (10 * 1024 ^ 4))%Q.
(** Two observations do not run at the same time. *)
Definition disjoint (a b : obs) : Prop :=
  let begins o := o_mjd o * 86400000 + o_mpm o in
  begins a + o_dur a <= begins b \/ begins b + o_dur b <= begins a.
Definition tb (o : obs) : Prop := match o_setup o with TBT _ | TBS _ _ => True | _ => False end.
(** The spectrometer: not used, or a power of two channels, 384, 768... windows and a known product. *)
Definition good_spectrometer (s : session) : Prop :=
  (s_nchan s <= 0 /\ s_nwin s <= 0 /\ s_meta s = []) \/
  ((exists k, 1 <= k <= 13 /\ s_nchan s = 2 ^ k) /\ (exists k, 0 <= k <= 9 /\ s_nwin s = 384 * 2 ^ k) /\
   In (s_meta s) [tx ""; tx "{Stokes=XXYY}"; tx "{Stokes=IQUV}"; tx "{Stokes=IV}"] /\
   match s_obs s with o :: _ => ~ tb o | [] => True end).
Record good_session (visible : obs -> bool) (s : session) : Prop := {
  g_id : 1 <= s_id s <= 9999;
  g_cra : 0 <= s_cra s <= 65535;
  g_beam : s_beam s = -1 \/ 1 <= s_beam s <= 4;
  g_record : Forall (fun i => -1 <= i) (s_record s);
  g_update : Forall (fun i => -1 <= i) (s_update s);
  g_spc : good_spectrometer s;
  g_obs : Forall (fun o => good_mode visible o /\ good_settings o /\ fits_drsu (bytes (s_nchan s) (s_nwin s) (s_meta s) o)) (map upd (s_obs s));
  g_kind : Forall tb (s_obs s) \/ Forall (fun o => ~ tb o) (s_obs s);
  g_apart : ForallOrdPairs disjoint (map upd (s_obs s));
  g_total : fits_drsu (fold_right Qplus 0%Q (map (bytes (s_nchan s) (s_nwin s) (s_meta s)) (map upd (s_obs s)))) }.
