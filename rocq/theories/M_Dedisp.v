(** Model of misc/dedispersion.py. *)
From Coq Require Import String List ZArith QArith Bool.
From Verif Require Export M_Py LibList M_Base M_Bar M_Flt.
Import ListNotations.
Open Scope Z_scope.

(** ** Dispersion delays, in double precision *)

(** _D (dedispersion.py 17) *)
Definition D : Q := fl (4148808 # 1000).
(** (1e6/freq)**2 *)
Definition inv2 (f : Q) : Q := let x := fl (1000000 / f) in fl (x * x).
(** freq.max() *)
Definition fmax (f : Q) (l : list Q) : Q := fold_left (fun m x => if Qle_bool x m then m else x) l f.

(** What delay returns: a number for a single frequency, else an array. *)
Inductive delays := Number (t : Q) | Array (l : list Q).

(** delay (dedispersion.py 24-54).  Frequencies are not zero (numpy makes
    infinities out of them); a single one is compared with infinity, for which
    (1e6/inf)**2 is 0. *)
Definition delay (freq : list Q) (dm : Q) : res delays :=
  match freq with
  | [] => Raise ValueError
  | [f] => Ok (Number (fl (fl (dm * D) * fl (inv2 f - 0))))
  | f :: l => Ok (Array (map (fun x => fl (fl (dm * D) * fl (inv2 x - inv2 (fmax f l)))) freq))
  end.

(** np.round(tDelay / tInt).astype(np.int32) (dedispersion.py 81-82); delays of
    2^31 or more integrations are not modelled. *)
Definition shift (tInt t : Q) : Z := half_even (fl (t / tInt)).

(** ** Incoherent dedispersion *)

Section Waterfall.
Context {A : Type}.

(** np.roll(a, s) *)
Definition roll (a : list A) (s : Z) : list A :=
  let n := zlen a in let m := s mod n in zdrop (n - m) a ++ ztake (n - m) a.
(** a[-d:] = fill, for 0 < d *)
Definition fill_last (a : list A) (d : Z) (fill : A) : list A :=
  let n := zlen a in ztake (n - d) a ++ repeat fill (Z.to_nat (Z.min d n)).

(** The loop over the channels (dedispersion.py 86-89).  The arrays are lists
    of channels; [cols] are the channels of the waterfall left and [out] those
    of the output. *)
Fixpoint dd_channels (filling : bool) (fill : A) (ds : list Z) (cols out : list (list A)) : res (list (list A)) :=
  match ds, cols, out with
  | [], _, _ => Ok out
  | d :: ds', c :: cols', _ :: out' =>
    let x := roll c (- d) in
    let x := if filling && (0 <? d) then fill_last x d fill else x in
    bind (dd_channels filling fill ds' cols' out') (fun r => Ok (x :: r))
  | _, _, _ => Raise IndexError
  end.

(** incoherent (dedispersion.py 57-92).  [times0] is the multiplication by 0.0;
    enumerate of the number that delay returns for one frequency is a TypeError. *)
Definition incoherent (times0 : A -> A) (freq : list Q) (waterfall : list (list A)) (tInt dm : Q) (boundary : string) (fill : A) : res (list (list A)) :=
  if negb (String.eqb boundary "wrap" || String.eqb boundary "fill") then Raise ValueError else
  bind (delay freq dm) (fun t =>
  match t with
  | Number _ => Raise TypeError
  | Array l => dd_channels (String.eqb boundary "fill") fill (map (shift tInt) l) waterfall (map (map times0) waterfall)
  end).
End Waterfall.

(** ** Coherent dedispersion *)

(** a[lo:hi], for bounds that are not negative *)
Definition slice {A} (a : list A) (lo hi : Z) : list A := ztake (hi - lo) (zdrop lo a).
(** a[-k:], for 0 < k *)
Definition last_of {A} (a : list A) (k : Z) : list A := zdrop (Z.max 0 (zlen a - k)) a.
(** a[lo:hi] = b: the lengths agree, or [b] has one element, which goes to all of them. *)
Definition assign {A} (a : list A) (lo hi : Z) (b : list A) : res (list A) :=
  let n := zlen a in let lo := Z.min lo n in let hi := Z.max lo (Z.min hi n) in
  if zlen b =? hi - lo then Ok (ztake lo a ++ b ++ zdrop hi a)
  else match b with
       | [x] => Ok (ztake lo a ++ repeat x (Z.to_nat (hi - lo)) ++ zdrop hi a)
       | _ => Raise ValueError
       end.
Definition zeros {A} (z : A) (n : Z) : list A := repeat z (Z.to_nat n).
(** try: ... except ValueError: raise RuntimeError *)
Definition as_runtime {A} (r : res A) : res A := match r with Raise ValueError => Raise RuntimeError | _ => r end.
(** subscripts of None *)
Definition subscript {A} (a : option A) : res A := match a with Some a => Ok a | None => Raise TypeError end.

Section Coherent.
Context {T A : Type} (zT : T) (zA : A).

(** Lines 205-217 of dedispersion.py: the window that begins before the data. *)
Definition window_start (N start : Z) (t : list T) (x : list A) (pt : option (list T)) (pd : option (list A)) : res (list T * list A) :=
  let timeIn := zeros zT N in
  let dataIn := zeros zA N in
  bind (match pd with
        | None => Ok (timeIn, dataIn)
        | Some pd => as_runtime (bind (subscript pt) (fun pt =>
                     bind (assign timeIn 0 (- start) (last_of pt (- start))) (fun timeIn =>
                     bind (assign dataIn 0 (- start) (last_of pd (- start))) (fun dataIn => Ok (timeIn, dataIn)))))
        end) (fun '(timeIn, dataIn) =>
  bind (assign timeIn (- start) N (slice t 0 (N + start))) (fun timeIn =>
  bind (assign dataIn (- start) N (slice x 0 (N + start))) (fun dataIn => Ok (timeIn, dataIn)))).

(** Lines 219-232 of dedispersion.py: the window that ends behind the data. *)
Definition window_stop (N start : Z) (t : list T) (x : list A) (nt : option (list T)) (nd : option (list A)) : res (list T * list A) :=
  let timeIn := zeros zT N in
  let dataIn := zeros zA N in
  let k := zlen x - start in
  bind (match nd with
        | None => Ok (timeIn, dataIn)
        | Some nd => as_runtime (bind (subscript nt) (fun nt =>
                     bind (assign timeIn k N (slice nt 0 (N - k))) (fun timeIn =>
                     bind (assign dataIn k N (slice nd 0 (N - k))) (fun dataIn => Ok (timeIn, dataIn)))))
        end) (fun '(timeIn, dataIn) =>
  if start <? zlen x then
    bind (assign timeIn 0 k (zdrop start t)) (fun timeIn =>
    bind (assign dataIn 0 k (zdrop start x)) (fun dataIn => Ok (timeIn, dataIn)))
  else Ok (timeIn, dataIn)).

(** Lines 201-236 of dedispersion.py *)
Definition window (N start : Z) (t : list T) (x : list A) (pt : option (list T)) (pd : option (list A)) (nt : option (list T)) (nd : option (list A)) : res (list T * list A) :=
  if start <? 0 then window_start N start t x pt pd
  else if zlen x <? start + N then window_stop N start t x nt nd
  else Ok (slice t start (start + N), slice x start (start + N)).

Definition absent {B} (o : option B) : bool := match o with None => true | Some _ => false end.

(** One pass of the loop (dedispersion.py 200-261); [dd] is the forward
    transform, the product with the chirp and the backward transform. *)
Definition pass (dd : list A -> list A) (N nSets : Z) (t : list T) (x : list A) pt pd nt nd (i : Z) (out : list T * list A) : res (list T * list A) :=
  let (outT, outD) := out in
  let start := N / 2 * i - N / 4 in
  bind (window N start t x pt pd nt nd) (fun '(timeIn, dataIn) =>
  let dataOut := dd dataIn in
  let outStart := N / 2 * i in
  let outStop := outStart + N / 2 in
  let dataStart := N / 4 in
  let dataStop := dataStart + N / 2 in
  let diff := if zlen outD <=? outStop then outStop - zlen outD else 0 in
  let outStop := outStop - diff in
  let dataStop := dataStop - diff in
  if (i =? 0) && absent pd then Ok out
  else if (i =? 2 * nSets) && absent nd then Ok out
  else
    bind (assign outT outStart outStop (slice timeIn dataStart dataStop)) (fun outT =>
    bind (assign outD outStart outStop (slice dataOut dataStart dataStop)) (fun outD => Ok (outT, outD)))).

Fixpoint passes (f : Z -> list T * list A -> res (list T * list A)) (l : list Z) (out : list T * list A) : res (list T * list A) :=
  match l with [] => Ok out | i :: l' => bind (f i out) (passes f l') end.

(** coherent (dedispersion.py 192-263) from the window size and the chirp on.
    RuntimeWarning, which is raised for too few samples, is shown as RuntimeError. *)
Definition coherent_with (N : Z) (dd : list A -> list A) (t : list T) (x : list A) pt pd nt nd : res (list T * list A) :=
  if N =? 0 then Raise ZeroDivisionError else
  let nSets := zlen x / N in
  if nSets =? 0 then Raise RuntimeError else
  passes (pass dd N nSets t x pt pd nt nd) (range 0 (2 * nSets + 1)) (zeros zT (zlen x), zeros zA (zlen x)).
End Coherent.

(** ** Window size and the cache *)

(** The least e with s <= 2^e. *)
Definition log2_up (s : Q) : Z :=
  let e := qlog2 s in if Qle_bool s (2 ^ e)%Q then e else e + 1.
(** get_coherent_sample_size (dedispersion.py 95-112), in exact arithmetic:
    ceil(log(samples)/log(2)) is the exact exponent.  log of 0 is -inf, whose
    power is 0; of a negative number it is nan, whose int() is a ValueError. *)
Definition get_coherent_sample_size (F0 BW dm : Q) : res Z :=
  let sq x := (x * x)%Q in
  let delayBand := (dm * (4148808 # 1000) * (sq (1000000 / (F0 - BW / 2)) - sq (1000000 / (F0 + BW / 2))))%Q in
  let samples := (delayBand * BW)%Q in
  if Qeq_bool samples 0 then Ok 0
  else if Qle_bool samples 0 then Raise ValueError
  else Ok (Qround.Qfloor (2 ^ log2_up samples * 2)%Q).

Section Cache.
(** The keys are (central_freq, sample_rate, dm, taper, dtype); [compute] is
    what lines 180-186 make of a key, or the exception they raise. *)
Context {K V R : Type} (keq : K -> K -> bool) (compute : K -> res V).

Fixpoint cached (c : list (K * V)) (k : K) : option V :=
  match c with [] => None | (k', v) :: c' => if keq k k' then Some v else cached c' k end.

(** Lines 172-190 of dedispersion.py *)
Definition lookup_chirp (c : list (K * V)) (k : K) (enable : bool) : list (K * V) * res V :=
  match cached c k with
  | Some v => (c, Ok v)
  | None =>
    match compute k with
    | Raise e => (c, Raise e)
    | Ok v => (if enable then (k, v) :: c else c, Ok v)
    end
  end.

(** The cache after a sequence of calls (dedispersion.py 172-190). *)
Fixpoint after_calls (c : list (K * V)) (l : list (K * bool)) : list (K * V) :=
  match l with [] => c | (k, e) :: l' => after_calls (fst (lookup_chirp c k e)) l' end.

(** A call of coherent (dedispersion.py 149-263); [rest] is what it does with window size and chirp. *)
Definition call (c : list (K * V)) (k : K) (enable : bool) (rest : V -> res R) : list (K * V) * res R :=
  let (c, r) := lookup_chirp c k enable in (c, bind r rest).
End Cache.
