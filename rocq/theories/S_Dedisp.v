(** What dedispersion does, without its loops. *)
From Coq Require Import List ZArith QArith Qabs Qcanon Bool.
From Verif Require Import LibList M_Base.
Import ListNotations.
Open Scope Z_scope.

(** ** Incoherent *)

(** Channel [x], with the samples [d] integrations later moved here; [x] continues at its beginning. *)
Definition wrapped {A} (x y : list A) (d : Z) : Prop :=
  zlen y = zlen x /\ forall z k, 0 <= k < zlen x -> znth z k y = znth z ((k + d) mod zlen x) x.
(** The same where samples that were not recorded are [fill]. *)
Definition filled {A} (fill : A) (x y : list A) (d : Z) : Prop :=
  zlen y = zlen x /\
  forall z k, 0 <= k < zlen x ->
    znth z k y = if (0 <=? k + d) && (k + d <? zlen x) then znth z (k + d) x else fill.

(** Every channel of [out] is made of the one of [w] with its shift. *)
Inductive channels {A} (made : list A -> list A -> Z -> Prop) : list Z -> list (list A) -> list (list A) -> Prop :=
| no_channel : channels made [] [] []
| next_channel : forall d x y ds w out, made x y d -> channels made ds w out -> channels made (d :: ds) (x :: w) (y :: out).

(** The delay at frequency [f] relative to [f0], in seconds (frequencies in Hz, dm in pc cm^-3). *)
Definition true_delay (dm f f0 : Q) : Q :=
  (dm * (4148808 # 1000) * ((1000000 / f) * (1000000 / f) - (1000000 / f0) * (1000000 / f0)))%Q.

(** The same relative to infinite frequency. *)
Definition full_delay (dm f : Q) : Q := (dm * (4148808 # 1000) * ((1000000 / f) * (1000000 / f)))%Q.

(** Shifts of the channels in integrations: none at the highest frequency, else the delay relative to it, to half an
    integration (and what is lost in double precision); the lower the frequency, the larger. *)
Definition shifts_for (freq : list Q) (tInt dm : Q) (ds : list Z) : Prop :=
  exists f0, In f0 freq /\ (forall f, In f freq -> (f <= f0)%Q) /\
    Forall2 (fun f d => 0 <= d /\ ((f == f0)%Q -> d = 0) /\
      (Qabs (inject_Z d - true_delay dm f f0 / tInt) <= (1 # 2) + full_delay dm f / tInt * (1 # 2 ^ 47))%Q) freq ds /\
    (forall f d g e, In (f, d) (combine freq ds) -> In (g, e) (combine freq ds) -> (f <= g)%Q -> e <= d).

(** ** Coherent *)

(** The stream around the data [x]: what came before, [x], what comes next;
    [z] where nothing is known. *)
Definition stream {A} (z : A) (p : option (list A)) (x : list A) (n : option (list A)) (j : Z) : A :=
  if j <? 0 then match p with Some p => znth z (zlen p + j) p | None => z end
  else if j <? zlen x then znth z j x
  else match n with Some n => znth z (j - zlen x) n | None => z end.

(** Overlapping windows: sample [k] is in block [k / (N/2)], and block [b] is
    the middle half of what [dd] makes of the window of [N] samples around it. *)
Definition windowed {A} (z : A) (N : Z) (dd : list A -> list A) (s : Z -> A) (k : Z) : A :=
  let first := N / 2 * (k / (N / 2)) - N / 4 in
  znth z (k - first) (dd (map s (range first (first + N)))).

(** The samples that stay zero: the first block without previous data, block
    number 2 * (samples / N) without next data, and the blocks after it. *)
Definition left_out {A B} (N len : Z) (p : option A) (n : option B) (k : Z) : bool :=
  let b := k / (N / 2) in
  ((b =? 0) && match p with None => true | Some _ => false end) ||
  ((b =? 2 * (len / N)) && match n with None => true | Some _ => false end) ||
  (2 * (len / N) <? b).

(** As many samples of times and data as are needed. *)
Definition enough {T A} (k : Z) (o : option (list T * list A)) : Prop :=
  match o with None => True | Some (t, x) => k <= zlen t /\ k <= zlen x end.

(** ** Sums of complex numbers *)
Definition cplx : Type := Qc * Qc.
Definition plus (x y : cplx) : cplx := ((fst x + fst y)%Qc, (snd x + snd y)%Qc).
Definition times (x y : cplx) : cplx := ((fst x * fst y - snd x * snd y)%Qc, (fst x * snd y + snd x * fst y)%Qc).
Definition czero : cplx := (0%Qc, 0%Qc).
Definition sum (l : list cplx) : cplx := fold_right plus czero l.

(** The product of two spectra is a circular convolution in time; [h] is the
    impulse response, for 0 <= j < N. *)
Definition circular (N : Z) (h : Z -> cplx) (x : list cplx) : list cplx :=
  map (fun q => sum (map (fun m => times (h ((q - m) mod N)) (znth czero m x)) (range 0 N))) (range 0 N).
(** The convolution of a stream with a response that is [R] samples long to either side. *)
Definition convolved (R : Z) (h : Z -> cplx) (s : Z -> cplx) (k : Z) : cplx :=
  sum (map (fun j => times (h j) (s (k - j))) (range (- R) (R + 1))).

(** A call of a function like coherent: times, data, previous and next times and data. *)
Definition dedisperser T A : Type := list T -> list A -> option (list T) -> option (list A) -> option (list T) -> option (list A) -> M_Py.res (list T * list A).
(** One piece after the other, each with its neighbours as previous and next data. *)
Fixpoint piecewise {T A} (f : dedisperser T A) (prev : option (list T * list A)) (l : list (list T * list A)) (next : option (list T * list A)) : M_Py.res (list T * list A) :=
  match l with
  | [] => M_Py.Ok ([], [])
  | (t, x) :: l' =>
    let after := match l' with [] => next | p :: _ => Some p end in
    M_Py.bind (f t x (option_map fst prev) (option_map snd prev) (option_map fst after) (option_map snd after)) (fun '(a, b) =>
    M_Py.bind (piecewise f (Some (t, x)) l' next) (fun '(a', b') => M_Py.Ok (a ++ a', b ++ b')))
  end.
(** All pieces at once. *)
Definition whole {T A} (f : dedisperser T A) (prev : option (list T * list A)) (l : list (list T * list A)) (next : option (list T * list A)) : M_Py.res (list T * list A) :=
  f (concat (map fst l)) (concat (map snd l)) (option_map fst prev) (option_map snd prev) (option_map fst next) (option_map snd next).
