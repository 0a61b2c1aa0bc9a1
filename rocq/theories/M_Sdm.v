(** Model of lsl/common/sdm.py (SDM.update_antennas, StationSettings.binary_read, SubSystemStatus) and of flat_to_multi of
    lsl/common/mcs.py. *)
From Coq Require Import List ZArith Bool.
From Verif Require Import M_Py.
Import ListNotations.
Open Scope Z_scope.

(** l[i]: negative indices count from the end. *)
Definition item {A} (l : list A) (i : Z) : res A :=
  let n := Z.of_nat (length l) in
  let j := if i <? 0 then i + n else i in
  if j <? 0 then Raise IndexError else match nth_error l (Z.to_nat j) with Some x => Ok x | None => Raise IndexError end.
(** What of an Antenna (lsl/common/stations.py) matters here. *)
Record antenna := mkAnt { stand_id : Z; pol : Z; status : Z }.
(** The objects, by identity. *)
Definition objects := nat -> antenna.
Definition set_status (h : objects) (a : nat) (s : Z) : objects :=
  fun b => if Nat.eqb b a then mkAnt (stand_id (h b)) (pol (h b)) s else h b.
(** update_antennas (247-262): [table] is ant_status; the list returned is of the given objects; what an exception leaves behind is
    the objects as they are then. *)
Fixpoint update_loop (table : list (list Z)) (h : objects) (out todo : list nat) : res (list nat) * objects :=
  match todo with
  | [] => (Ok out, h)
  | a :: r =>
      match bind (item table (stand_id (h a) - 1)) (fun row => item row (pol (h a))) with
      | Raise e => (Raise e, h)
      | Ok s => update_loop table (set_status h a s) (out ++ [a]) r
      end
  end.
Definition update_antennas (table : list (list Z)) (h : objects) (ants : list nat) : res (list nat) * objects := update_loop table h [] ants.

(** A list of lists of ... *)
Inductive nest := Leaf (a : Z) | Node (l : list nest).
(** [outputList[i:i+d] for i in range(0, len(outputList), d)] (mcs.py 791). *)
Definition chunk (d : nat) (l : list nest) : res (list nest) :=
  match d with
  | O => Raise ValueError
  | _ => Ok (map (fun k => Node (firstn d (skipn (k * d) l))) (seq 0 ((length l + d - 1) / d)))
  end.
(** The loop (790-792); the shape is given from its last dimension to its first. *)
Fixpoint group (rshape : list nat) (l : list nest) : res (list nest) :=
  match rshape with
  | [] => Ok l
  | d :: r => match r with [] => Ok l | _ => bind (chunk d l) (group r) end
  end.
(** flat_to_multi (778-794).  Simplification: dimensions are not negative. *)
Definition flat_to_multi (l : list Z) (shape : list nat) : res (list nest) :=
  if negb (Nat.eqb (fold_left Nat.mul shape 1%nat) (length l)) then Raise ValueError else group (rev shape) (map Leaf l).

(** The subsystems of the report and update intervals (sdm.py 121-131). *)
Inductive subsystem := ASP | NDP | DR1 | DR2 | DR3 | DR4 | DR5 | SHL | MCS.
(** The place of the interval in the two groups of shorts of STATION_SETTINGS_STRUCT (mcs.py 198-216). *)
Definition place (s : subsystem) : nat :=
  match s with ASP => 0 | NDP => 1 | DR1 => 2 | DR2 => 3 | DR3 => 4 | DR4 => 5 | DR5 => 6 | SHL => 7 | MCS => 8 end.
(** A little-endian short; what the file does not have is zero. *)
Definition short_at (data : list Z) (k : nat) : Z :=
  let u := nth (2 * k) data 0 + 256 * nth (2 * k + 1) data 0 in if u <? 32768 then u else u - 65536.
(** StationSettings.binary_read, the report and update intervals (173-189): [old] is what was there before. *)
Definition read_report (data : list Z) (old : subsystem -> Z) (s : subsystem) : Z :=
  match s with DR5 => old DR5 | s => short_at data (place s) end.
Definition read_update (data : list Z) (old : subsystem -> Z) (s : subsystem) : Z :=
  match s with DR5 => old DR5 | s => short_at data (9 + place s) end.
(** The intervals of a new instance (121-129). *)
Definition new_intervals (s : subsystem) : Z := -1.

(** SubSystemStatus.summary: an instance of SummaryCode or a plain number. *)
Inductive summary := Code (z : Z) | Number (z : Z).
(** __init__ (30-34): SummaryCode(summary) is a ValueError outside its codes (mcs.py 647-658). *)
Definition codes : list Z := [0; 1; 2; 3; 4; 5; 6].
Definition new_status (z : Z) : res summary := if existsb (Z.eqb z) codes then Ok (Code z) else Raise ValueError.
(** binary_read (39-53). *)
Definition read_status (value : Z) : summary := Number value.
(** __str__ (36-37): the values are taken first, the time and the description among them, then %i takes a number and not a member of
    an enum.Enum.  [time] is the outcome of datetime.fromtimestamp; of the text only the number is kept. *)
Definition description (s : summary) : res unit := match s with Code _ => Ok tt | Number _ => Raise AttributeError end.
Definition percent_i (s : summary) : res Z := match s with Code _ => Raise TypeError | Number z => Ok z end.
Definition str_status (time : res unit) (s : summary) : res Z := bind time (fun _ => bind (description s) (fun _ => percent_i s)).
