(** Model of lsl/common/progress.py and lsl/common/busy.py: what is drawn, without colour. *)
From Coq Require Import List ZArith Bool QArith Qround.
From Verif Require Export M_Py M_Str.
Import ListNotations.
Open Scope Z_scope.

(** [c] n times ('c' * n; nothing for a negative n). *)
Definition rep (c : Z) (n : Z) : str := repeat c (Z.to_nat n).
(** int() of a number that is not negative. *)
Definition trunc (q : Q) : Z := Qfloor q.
(** '%5.1f' of a number that is not negative: to the nearest tenth, ties to even. *)
Definition half_even (q : Q) : Z :=
  let f := Qfloor q in
  match Qcompare (q - inject_Z f)%Q (1 # 2)%Q with Lt => f | Gt => f + 1 | Eq => if Z.even f then f else f + 1 end.
Definition pad (w : Z) (s : str) : str := rep 32 (w - Z.of_nat (length s)) ++ s.
Definition fmt_5_1f (q : Q) : str := let t := half_even (10 * q)%Q in pad 5 (dec (t / 10) ++ 46 :: dec (t mod 10)).
(** '%4i', '%02i'. *)
Definition fmt_4i (n : Z) : str := pad 4 (dec n).
Definition fmt_02i (n : Z) : str := let s := dec n in rep 48 (2 - Z.of_nat (length s)) ++ s.

Section Draw.
  (** Rounding to double precision. *)
  Variable rnd : Q -> Q.

  (** float(self.amount)/self.max. *)
  Definition fraction (amount max : Z) : Q := rnd (rnd (inject_Z amount) / rnd (inject_Z max))%Q.
  (** rotations (43): the last one is the symbol. *)
  Definition rotations (sym : Z) : list Z := [45; 92; 124; 47; sym].
  (** The bar of [w] places (75-87, 97-107 and the same in the other classes); [cap]: the count of marks is limited to
      the width (only ProgressBarPlus without and DownloadBar with percentage).  Simplification: sym is one character,
      amount is a number that is not negative. *)
  Definition marks (amount max w : Z) : Q := rnd (fraction amount max * inject_Z w)%Q.
  Definition bar (cap : bool) (sym amount max w : Z) : exn + str :=
    if max =? 0 then inl ZeroDivisionError
    else
      let n := marks amount max w in
      let full := if cap then Z.min (trunc n) w else trunc n in
      if full <? w
      then let partial := rnd (n - inject_Z full)%Q in
           let k := trunc (rnd (partial * 5)%Q) in
           match nth_error (rotations sym) (Z.to_nat k) with
           | Some c => inr (rep sym full ++ [c] ++ rep 32 (w - (full + 1)))
           | None => inl IndexError
           end
      else inr (rep sym full ++ rep 32 (w - full)).
  (** '%5.1f%%' % (float(amount)/max*100). *)
  Definition percent (amount max : Z) : str := fmt_5_1f (rnd (fraction amount max * 100)%Q) ++ [37].

  (** ProgressBar.show (65-110). *)
  Definition show (print_percent : bool) (sym amount max span : Z) : exn + str :=
    if print_percent
    then match bar false sym amount max (span - 9) with inr b => inr (91 :: b ++ [93; 32] ++ percent amount max) | inl e => inl e end
    else match bar false sym amount max (span - 2) with inr b => inr (91 :: b ++ [93]) | inl e => inl e end.

  (** _pprint of ProgressBarPlus (212-219) for a time in seconds. *)
  Definition pprint_time (t : Q) : str := fmt_4i (trunc (rnd (t / 60)%Q)) ++ 109 :: fmt_02i (trunc (t - 60 * inject_Z (Qfloor (t / 60)))%Q) ++ [115].
  (** The estimate of ProgressBarPlus.show (226-243); [elapsed]: None before the first inc(). *)
  Definition estimate (amount max : Z) (elapsed : option Q) : str :=
    match elapsed with
    | None => [45; 45; 45; 45; 109; 45; 45; 115]
    | Some t => if amount =? 0 then [45; 45; 45; 45; 109; 45; 45; 115]
                else if max <=? amount then pprint_time t
                else if Qle_bool (1 # 5) t then pprint_time (rnd (rnd (inject_Z (max - amount) * t) / inject_Z amount))%Q
                else [45; 45; 45; 45; 109; 45; 45; 115]
    end.
  (** ProgressBarPlus.show (221-288). *)
  Definition show_plus (print_percent : bool) (sym amount max span : Z) (elapsed : option Q) : exn + str :=
    let cte := estimate amount max elapsed in
    if print_percent
    then match bar false sym amount max (span - 9) with inr b => inr (91 :: b ++ [93; 32] ++ percent amount max ++ 32 :: cte) | inl e => inl e end
    else match bar true sym amount max (span - 2) with inr b => inr (91 :: b ++ [93; 32] ++ cte) | inl e => inl e end.

  (** DownloadBar._pprint (312-329) for a rate that is not negative. *)
  Definition GB : Q := inject_Z (1024 * 1024 * 1024).
  Definition MB : Q := inject_Z (1024 * 1024).
  Definition kB : Q := inject_Z 1024.
  Definition pprint_rate (v : Q) (slash : str) : str :=
    if negb (Qle_bool v ((9 # 10) * GB)) then fmt_5_1f (v / GB) ++ [71; 66] ++ slash
    else if negb (Qle_bool v ((9 # 10) * MB)) then fmt_5_1f (v / MB) ++ [77; 66] ++ slash
    else if negb (Qle_bool v ((9 # 10) * kB)) then fmt_5_1f (v / kB) ++ [107; 66] ++ slash
    else fmt_5_1f v ++ [32; 66] ++ slash.
  Definition no_rate : str := [45; 45; 45; 45; 45; 32; 66; 47; 115].
  Definition rate (amount max : Z) (elapsed : option Q) : str :=
    match elapsed with
    | None => no_rate
    | Some t => if amount =? 0 then no_rate
                else if max <=? amount then pprint_rate (inject_Z amount) [32; 32]
                else if Qle_bool (1 # 100) t then pprint_rate (rnd (inject_Z amount / t))%Q [47; 115]
                else no_rate
    end.
  (** DownloadBar.show (331-400). *)
  Definition show_download (print_percent : bool) (sym amount max span : Z) (elapsed : option Q) : exn + str :=
    let cte := rate amount max elapsed in
    if print_percent
    then match bar true sym amount max (span - 10) with
         | inr b => inr (91 :: b ++ [93; 32] ++ (if max <? amount then [45; 45; 45; 45; 45; 37] else percent amount max) ++ 32 :: cte)
         | inl e => inl e
         end
    else match bar false sym amount max (span - 3) with inr b => inr (91 :: b ++ [93; 32] ++ cte) | inl e => inl e end.
End Draw.

(** inc, dec (49-63, 124-157). *)
Inductive bop := Inc (k : Z) | Dec (k : Z).
Definition count (o : bop) (a : Z) : Z := match o with Inc k => a + k | Dec k => if k <=? a then a - k else a end.

(** ** busy.py *)
(** BusyIndicator._run (102-123): the text of one round and the next _i. *)
Definition busy_frame (message : str) (dots i : Z) : str * Z :=
  (message ++ rep 46 i ++ rep 32 (dots - i), (i + 1) mod (dots + 1)).
(** l[i] = c for a Python index. *)
Definition set_at (i c : Z) (l : str) : option str :=
  let k := if i <? 0 then i + Z.of_nat (length l) else i in
  if (0 <=? k) && (k <? Z.of_nat (length l)) then Some (firstn (Z.to_nat k) l ++ c :: skipn (S (Z.to_nat k)) l) else None.
(** _render_boomerang (137-151): text, _i and _dir. *)
Definition boomerang (width i dir : Z) : option (str * Z * Z) :=
  match set_at i (nth (Z.to_nat (i mod 4)) [124; 47; 45; 92] 0) (rep 32 width) with
  | None => None
  | Some out =>
      let i1 := i + dir in
      let '(i2, d2) := if i1 <? 0 then (i1 + 1, 1) else (i1, dir) in
      let '(i3, d3) := if i2 =? width then (i2 - 2, -1) else (i2, d2) in
      Some (out, i3, d3)
  end.
(** _render_pingpong (153-177). *)
Definition pingpong (active : bool) (width i dir : Z) : option (str * Z * Z) :=
  let sym := if active then 111 else 46 in
  let '(out, d) :=
    if i =? 0 then (41 :: sym :: rep 32 (width - 3) ++ [124], 1)
    else if i =? width - 3 then (124 :: rep 32 (width - 3) ++ [sym; 40], -1)
    else (124 :: rep 32 i ++ [sym] ++ rep 32 (width - i - 3) ++ [124], dir) in
  Some (out, i + d, d).
(** _render_flow (179-190). *)
Definition flow (width i dir : Z) : option (str * Z * Z) :=
  match set_at (i - 2) 62 (rep 32 width) with
  | Some o1 => match set_at (i - 1) 62 o1 with
               | Some o2 => match set_at i 62 o2 with Some o3 => Some (o3, (i + 1) mod width, dir) | None => None end
               | None => None
               end
  | None => None
  end.
Inductive style := Boomerang | Pingpong | Flow.
Definition render (s : style) (width i dir : Z) : option (str * Z * Z) :=
  match s with Boomerang => boomerang width i dir | Pingpong => pingpong true width i dir | Flow => flow width i dir end.
(** The frames of a run from the start (_i = 0, _dir = 1); None: a render raised IndexError. *)
Fixpoint frames_from (s : style) (width : Z) (n : nat) (i dir : Z) : option (list str) :=
  match n with
  | O => Some []
  | S k => match render s width i dir with
           | None => None
           | Some (out, i', d') => match frames_from s width k i' d' with Some l => Some (out :: l) | None => None end
           end
  end.
Definition frames (s : style) (width : Z) (n : nat) : option (list str) := frames_from s width n 0 1.

(** Threads: the indicator thread draws while stop(), in the caller's thread, draws once more with the same _i
    (192-195, before alive.clear()).  One drawing of the boomerang style in four steps. *)
Inductive bstep := Draw | Move | CheckLow | CheckHigh.
Record shared := mkSh { sh_i : Z; sh_dir : Z }.
Definition bstep_run (width : Z) (b : bstep) (s : shared) : option shared :=
  match b with
  | Draw => match set_at (sh_i s) 45 (rep 32 width) with Some _ => Some s | None => None end
  | Move => Some (mkSh (sh_i s + sh_dir s) (sh_dir s))
  | CheckLow => Some (if sh_i s <? 0 then mkSh (sh_i s + 1) 1 else s)
  | CheckHigh => Some (if sh_i s =? width then mkSh (sh_i s - 2) (-1) else s)
  end.
Definition one_drawing : list bstep := [Draw; Move; CheckLow; CheckHigh].
Fixpoint bsteps (width : Z) (l : list bstep) (s : shared) : option shared :=
  match l with [] => Some s | b :: r => match bstep_run width b s with Some s' => bsteps width r s' | None => None end end.
