(** Model of LWADataFile (lsl/reader/ldp.py 2180-2284): finding out the format of a file. *)
From Coq Require Import List ZArith Bool.
From Verif Require Export M_Files M_Drx M_Drspec M_Cor.
Import ListNotations.
Open Scope Z_scope.

(** The result: which class is built.  Opening the file again with that class (ldp.py 2262-2284) is not part of it. *)
Inductive format := DRX | DRX8 | DRSpec | TBX | COR.

Section Mode.
(** One of the modules drx, drx8, drspec, tbx, cor: its read_frame and what it keeps between calls. *)
Context {St A : Type} (reader : St -> file -> St * file * rd A).

(** The search for a frame marker (ldp.py 2219-2227), at most mfs turns; [Ok true] is foundMatch.
    The seek can leave the file, which raises. *)
Fixpoint scan (mfs : Z) (n : nat) (st : St) (f : file) : St * file * res bool :=
  match n with
  | O => (st, f, Ok false)
  | S k =>
      match reader st f with
      | (st1, f1, Got _) => (st1, f1, Ok true)
      | (st1, f1, AtEOF) => (st1, f1, Ok false)
      | (st1, f1, BadSync _) =>
          match f_seek (- mfs + 1) 1 f1 with
          | (f2, None) => scan mfs k st1 f2
          | (f2, Some e) => (st1, f2, Raise e)
          end
      end
  end.

(** What one turn of the loop over the modes comes to: foundMode and break, break without it, next mode. *)
Inductive verdict := Found | GaveUp | NextMode.

(** One turn (ldp.py 2201-2250) with the frame size sorted out. *)
Definition probe (mfs : Z) (st : St) (f : file) : St * file * res verdict :=
  match scan mfs (Z.to_nat mfs) st f with
  | (st1, f1, Raise e) => (st1, f1, Raise e)
  | (st1, f1, Ok false) => (st1, fst (f_seek 0 0 f1), Ok NextMode)
  | (st1, f1, Ok true) =>
      match f_seek (- mfs) 1 f1 with
      | (f2, Some e) => (st1, f2, Raise e)
      | (f2, None) =>
          match reads reader 2 st1 f2 with
          | (st2, f3, _, None) => (st2, f3, Ok Found)
          | (st2, f3, _, Some EOFError) => (st2, f3, Ok GaveUp)
          | (st2, f3, _, Some _) => (st2, fst (f_seek 0 0 f3), Ok NextMode)
          end
      end
  end.

(** With mode.get_frame_size(fh); any exception counts as size 0 (ldp.py 2209-2215). *)
Definition probe_sized (size : St -> file -> St * file * res Z) (st : St) (f : file) : St * file * res verdict :=
  let '(st1, f1, r) := size st f in
  probe (match r with Ok n => n | Raise _ => 0 end) st1 f1.
End Mode.

(** The readers that keep nothing between calls. *)
Definition plain {A} (reader : file -> file * rd A) (u : unit) (f : file) : unit * file * rd A :=
  let '(f1, r) := reader f in (u, f1, r).

(** The loop over the modes (ldp.py 2201-2250) and what follows it (2252-2259): the file is rewound, and closed unless
    it is a SplitFileWrapper; RuntimeError when nothing was found.  The arguments are the five turns; [c], [t]: what the
    COR and TBX readers remember. *)
Definition try_modes (drx drx8 drspec : file -> file * res verdict) (tbx : tcache -> file -> tcache * file * res verdict)
    (cor : ccache -> file -> ccache * file * res verdict) (c : ccache) (t : tcache) (f : file) : ccache * tcache * file * res format :=
  let finish c t f v := (c, t, fst (f_seek 0 0 f), match v with Some m => Ok m | None => Raise RuntimeError end) in
  match drx f with
  | (f, Raise e) => (c, t, f, Raise e)
  | (f, Ok Found) => finish c t f (Some DRX)
  | (f, Ok GaveUp) => finish c t f None
  | (f, Ok NextMode) =>
  match drx8 f with
  | (f, Raise e) => (c, t, f, Raise e)
  | (f, Ok Found) => finish c t f (Some DRX8)
  | (f, Ok GaveUp) => finish c t f None
  | (f, Ok NextMode) =>
  match drspec f with
  | (f, Raise e) => (c, t, f, Raise e)
  | (f, Ok Found) => finish c t f (Some DRSpec)
  | (f, Ok GaveUp) => finish c t f None
  | (f, Ok NextMode) =>
  match tbx t f with
  | (t, f, Raise e) => (c, t, f, Raise e)
  | (t, f, Ok Found) => finish c t f (Some TBX)
  | (t, f, Ok GaveUp) => finish c t f None
  | (t, f, Ok NextMode) =>
  match cor c f with
  | (c, f, Raise e) => (c, t, f, Raise e)
  | (c, f, Ok Found) => finish c t f (Some COR)
  | (c, f, Ok _) => finish c t f None
  end end end end end.

Definition lwa_data_file : ccache -> tcache -> file -> ccache * tcache * file * res format :=
  let forget (x : unit * file * res verdict) := (snd (fst x), snd x) in
  try_modes (fun f => forget (probe (plain read_drx) drx_size tt f))
            (fun f => forget (probe (plain read_drx8) drx8_size tt f))
            (fun f => forget (probe_sized (plain read_drspec) (fun u f => let '(f1, r) := drs_frame_size f in (u, f1, r)) tt f))
            (probe_sized read_tbx (frame_size read_tbx is_tbx))
            (probe_sized read_cor (frame_size read_cor is_cor)).
