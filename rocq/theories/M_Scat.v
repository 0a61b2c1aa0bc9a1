(** Model of lsl/misc/scattering.py: unscatter (145-243) up to the restoring of the profile.
    Simplifications: exact rational numbers; the broadening function, the off-pulse deviation and the figure of merit are parameters; a
    figure of merit that is nan or infinite is None; times and profile are of the same length. *)
From Coq Require Import List ZArith Bool QArith Qround.
From Verif Require Import M_Py.
Import ListNotations.
Open Scope Q_scope.

(** np.arange(tScatMin, tScatMax, tScatStep) (180). *)
Definition taus (lo hi step : Q) : res (list Q) :=
  if Qeq_bool step 0 then Raise ZeroDivisionError
  else Ok (map (fun k => lo + inject_Z (Z.of_nat k) * step) (seq 0 (Z.to_nat (Qceiling ((hi - lo) / step))))).
(** working.max() of a profile with a first value, and the first place it is found (189). *)
Definition qmax (l : list Q) (d : Q) : Q := fold_left (fun m x => if Qle_bool x m then m else x) l d.
Fixpoint place (m : Q) (l : list Q) : nat := match l with [] => 0%nat | x :: r => if Qeq_bool x m then 0%nat else S (place m r) end.
Definition total (l : list Q) : Q := fold_left Qplus l 0.
(** cc[peak] += v *)
Fixpoint add_at (k : nat) (v : Q) (l : list Q) : list Q :=
  match l, k with [], _ => [] | x :: r, O => (x + v) :: r | x :: r, S k => x :: add_at k v r end.
(** working -= toRemove *)
Fixpoint minus (a b : list Q) : list Q := match a, b with x :: r, y :: s => (x - y) :: minus r s | _, _ => [] end.
Section Unscatter.
  Variable screen : list Q -> Q -> list Q.
  Variable sigma : Q.
  Variable gain : Q.
  Variable t : list Q.
  (** One component (194-202): what is removed, from the profile with the peak [m] at [k]. *)
  Definition component (tau : Q) (k : nat) (m : Q) : list Q :=
    let g := screen (map (fun x => x - nth k t 0) t) tau in
    let s := total g in map (fun x => x / s * (gain * m)) g.
  (** The loop (186-203): iterations used, what is left of the profile and the components. *)
  Fixpoint clean (tau : Q) (n : nat) (i : nat) (working cc : list Q) : res (nat * list Q * list Q) :=
    match n with
    | O => Ok (i, working, cc)
    | S n =>
        match working with
        | [] => Raise ValueError
        | x :: r =>
            let m := qmax r x in
            let k := place m working in
            if negb (Qle_bool ((3 # 2) * sigma) m) then Ok (i, working, cc)
            else let c := component tau k m in clean tau n (S i) (minus working c) (add_at k (total c) cc)
        end
    end.
  Variable merit : list Q -> list Q -> list Q -> option Q.
  Variable max_iter : nat.
  Record trial := mkTrial { r_tau : Q; r_iter : nat; r_left : list Q; r_cc : list Q; r_merit : option Q }.
  (** One scattering time (181-209). *)
  Definition try_tau (raw : list Q) (tau : Q) : res trial :=
    bind (clean tau max_iter 0 (map (fun x => x * 1) raw) (map (fun x => x * 0) raw)) (fun '(i, w, cc) => Ok (mkTrial tau i w cc (merit raw w cc))).
  (** The comparison (211-214): None is np.inf at first. *)
  Definition better (b : option trial) (r : trial) : option trial :=
    match r_merit r with
    | None => b
    | Some m => match b with
                | None => Some r
                | Some o => match r_merit o with Some m' => if negb (Qle_bool m' m) then Some r else b | None => b end
                end
    end.
  Fixpoint search (raw : list Q) (b : option trial) (l : list Q) : res (option trial) :=
    match l with
    | [] => Ok b
    | tau :: r => bind (try_tau raw tau) (fun x => search raw (better b x) r)
    end.
  (** unscatter: without any scattering time tScat is not bound at the check (217), an UnboundLocalError; without a best one the
      check passes and iList[None] is a KeyError (222). *)
  Definition unscatter (raw : list Q) (lo hi step : Q) : res trial :=
    bind (taus lo hi step) (fun l =>
    bind (search raw None l) (fun b =>
    match l with
    | [] => Raise NameError
    | _ => match b with Some r => Ok r | None => Raise KeyError end
    end)).
End Unscatter.
