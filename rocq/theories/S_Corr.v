(** What spectra and correlations are, in terms of the samples of each antenna. *)
From Coq Require Import Ascii String List ZArith QArith Qcanon Qround Bool.
From Verif Require Import LibList.
Import ListNotations.
Open Scope Z_scope.

Definition complex : Type := (Qc * Qc)%type.
(** lo, lo+1, ..., n numbers *)
Fixpoint counting (lo : Z) (n : nat) : list Z := match n with O => [] | S n => lo :: counting (lo + 1) n end.
Definition upto (lo hi : Z) : list Z := counting lo (Z.to_nat (hi - lo)).

(** The exact number. *)
Definition num (n : Z) : Qc := Q2Qc (inject_Z n).
Definition power (z : complex) : Qc := let '(a, b) := z in (a * a + b * b)%Qc.
(** z times the conjugate of w *)
Definition times_conj (z w : complex) : complex :=
  let '(a, b) := z in let '(c, d) := w in ((a * c + b * d)%Qc, (b * c - a * d)%Qc).
Definition plus (z w : complex) : complex := ((fst z + fst w)%Qc, (snd z + snd w)%Qc).
Fixpoint total (l : list Qc) : Qc := match l with [] => 0%Qc | x :: l => (x + total l)%Qc end.
Fixpoint total_c (l : list complex) : complex := match l with [] => (0%Qc, 0%Qc) | z :: l => plus z (total_c l) end.
(** The mean of a list that is not empty. *)
Definition mean (l : list Qc) : option Qc := match l with [] => None | _ => Some (total l / num (zlen l))%Qc end.
Definition mean_c (l : list complex) : option complex :=
  match l with [] => None | _ => Some ((fst (total_c l) / num (zlen l))%Qc, (snd (total_c l) / num (zlen l))%Qc) end.

Section Transforms.
(** The transform, its length, the number of blocks a filter bank adds up (1 for a plain transform), and the weights. *)
Context (F : list complex -> list complex) (L taps : Z) (weights : option (Z -> Qc)).

(** Sample [p] of a signal; zero before it begins. *)
Definition sample (x : list complex) (p : Z) : complex := if p <? 0 then (0%Qc, 0%Qc) else znth (0%Qc, 0%Qc) p x.
Definition weigh (k : Z) (z : complex) : complex := match weights with None => z | Some w => ((w k * fst z)%Qc, (w k * snd z)%Qc) end.
(** The samples that go into the transform that starts at [p]: [taps] blocks, the last one from [p] on. *)
Definition used (p : Z) : list Z := upto (p - L * (taps - 1)) (p + L).
Definition block (x : list complex) (p l : Z) : list complex :=
  map (fun k => weigh (l * L + k) (sample x (p - L * (taps - 1) + l * L + k))) (upto 0 L).
(** Bin [b] of it. *)
Definition bin (x : list complex) (p b : Z) : complex :=
  total_c (map (fun l => znth (0%Qc, 0%Qc) b (F (block x p l))) (upto 0 taps)).

(** A sample whose magnitude reaches the clip level; a level of 0 means none does. *)
Definition too_large (level : Z) (z : complex) : bool := negb (level =? 0) && ((level <=? 0) || Qle_bool (inject_Z (level * level)) (this (power z))).
Definition blanked (level : Z) (x : list complex) (p : Z) : bool := existsb (fun q => too_large level (sample x q)) (used p).

(** Where the transforms of [n] samples start: every [step] samples as long as L samples are left. *)
Definition starts (n step : Z) : list Z := map (fun j => j * step) (upto 0 (if n <? L then 0 else (n - L) / step + 1)).

(** The power spectral density of a signal, [None] (not a number) when no transform is left. *)
Definition psd (level step : Z) (x : list complex) (b : Z) : option Qc :=
  option_map (fun v => (v / num L)%Qc) (mean (map (fun p => power (bin x p b)) (filter (fun p => negb (blanked level x p)) (starts (zlen x) step)))).
End Transforms.

(** The bin of a transform of length [n] that channel [k] shows, when the channels go up in frequency from the most negative one. *)
Definition shifted_bin (n k : Z) : Z := (k + n - n / 2) mod n.
(** The frequency of a bin: bins from n/2 (rounded up) on are negative frequencies. *)
Definition bin_freq (n : Z) (rate : Qc) (b : Z) : Qc := (num (if 2 * b <? n then b else b - n) * rate / num n)%Qc.

(** The four Stokes parameters of a pair of values of X and Y: I, Q, U, V. *)
Definition stokes (p : Z) (x y : complex) : Qc :=
  if p =? 0 then (power x + power y)%Qc else if p =? 1 then (power x - power y)%Qc
  else if p =? 2 then (num 2 * fst (times_conj x y))%Qc else (num 2 * snd (times_conj x y))%Qc.
(** The mean of one of them over the transforms in which neither signal is blanked. *)
Definition stokes_psd (F : list complex -> list complex) (L taps : Z) (weights : option (Z -> Qc)) (level step : Z) (x y : list complex) (p b : Z) : option Qc :=
  option_map (fun v => (v / num L)%Qc)
    (mean (map (fun s => stokes p (bin F L taps weights x s b) (bin F L taps weights y s b))
       (filter (fun s => negb (blanked L taps level x s) && negb (blanked L taps level y s)) (starts L (zlen x) step)))).

(** The positions at which a list has a property, in order. *)
Definition positions {A} (p : A -> bool) (l : list A) : list Z := map fst (filter (fun q => p (snd q)) (combine (upto 0 (zlen l)) l)).

(** ** Correlation *)
Definition c_times (z w : complex) : complex :=
  let '(a, b) := z in let '(c, d) := w in ((a * c - b * d)%Qc, (a * d + b * c)%Qc).
(** The mean of x1 times the conjugate of x2 over the transforms in which neither is blanked.  Signal i is read [di] samples later, up to [dmax]
    samples, and its transforms are multiplied by [ri]. *)
Definition vis (F : list complex -> list complex) (L taps : Z) (weights : option (Z -> Qc)) (level step dmax : Z)
    (x1 x2 : list complex) (d1 d2 : Z) (r1 r2 : complex) (b : Z) : option complex :=
  mean_c (map (fun p => times_conj (c_times (bin F L taps weights x1 (p + d1) b) r1) (c_times (bin F L taps weights x2 (p + d2) b) r2))
    (filter (fun p => negb (blanked L taps level x1 (p + d1)) && negb (blanked L taps level x2 (p + d2))) (starts L (zlen x1 - dmax) step))).
(** All pairs of 0..n-1 in order, with or without those of a number with itself. *)
Definition pair_list (auto : bool) (n : Z) : list (Z * Z) :=
  flat_map (fun i => map (fun j => (i, j)) (upto (if auto then i else i + 1) n)) (upto 0 n).
(** The smallest and the largest member. *)
Definition least (l : list Qc) (m : Qc) : Prop := In m l /\ forall x, In x l -> (m <= x)%Qc.
Definition greatest (l : list Z) (m : Z) : Prop := In m l /\ forall x, In x l -> x <= m.
(** The nearest integer, halves upwards. *)
Definition nearest (x : Qc) : Z := Qfloor (this x + (1 # 2)).

Section Delayed.
(** [E x] is exp(2 pi i x).  [tau] is a delay as a function of frequency. *)
Context (E : Qc -> complex) (norm : Qc) (F : list complex -> list complex) (L taps : Z) (weights : option (Z -> Qc)) (level step : Z) (rate fref : Qc).
(** The whole number of samples by which a signal is shifted: its delay at the reference frequency. *)
Definition lag (tau : Qc -> Qc) : Z := nearest (tau fref * rate)%Qc.
(** The rest of the delay is a rotation: at the frequency [f] of bin [b] that of the whole delay, less what the shift of the samples did to
    the bin. *)
Definition turn (f : Qc) (b : Z) (tau : Qc -> Qc) : complex := c_times (norm, 0%Qc) (E (f * tau f - bin_freq L rate b * (num (lag tau) / rate))%Qc).
Definition correlation (dmax : Z) (f : Qc) (b : Z) (x1 x2 : list complex) (tau1 tau2 : Qc -> Qc) : option complex :=
  vis F L taps weights level step dmax x1 x2 (lag tau1) (lag tau2) (turn f b tau1) (turn f b tau2) b.
End Delayed.
(** The polarization a letter stands for. *)
Definition pol_number (c : ascii) : option Z :=
  if existsb (Ascii.eqb c) ["X"; "x"; "R"; "r"]%char then Some 0 else if existsb (Ascii.eqb c) ["Y"; "y"; "L"; "l"]%char then Some 1 else None.
(** The Stokes parameters of a baseline (I, Q, U, V) from the correlations of the X and Y signals of the first stand with those of the second. *)
Definition stokes_vis (p : Z) (xx xy yx yy : option complex) : option complex :=
  match xx, xy, yx, yy with
  | Some (a, b), Some (c, d), Some (e, f), Some (g, h) =>
      Some (if p =? 0 then ((a + g)%Qc, (b + h)%Qc) else if p =? 1 then ((a - g)%Qc, (b - h)%Qc) else if p =? 2 then ((c + e)%Qc, (d + f)%Qc)
            else ((d - f)%Qc, (e - c)%Qc))  (* (xy - yx) / i *)
  | _, _, _, _ => None
  end.
