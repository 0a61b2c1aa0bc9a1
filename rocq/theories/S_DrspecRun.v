(** What a decoded spectrometer frame must show. *)
From Coq Require Import List ZArith Bool.
From Verif Require Import M_Drspec S_Drspec.
Import ListNotations.
Open Scope Z_scope.

(** Spectrum of product number [j] of the recorded ones: each recorded value divided by the
    number of channels times the fills. *)
Definition spectrum (r : drs_rec) (t b j : Z) : list cell :=
  map (fun row => CVal (znth 0 j row) (q_nfreq r * fills_of r t b)) (if t =? 0 then q_spec0 r else q_spec1 r).

(** All header attributes, and exactly the recorded products, each in its place. *)
Definition shows_drs (r : drs_rec) (s : sframe) : Prop :=
  let h := sf_head s in
  s_tag h = q_tag r /\ s_toff h = q_toff r /\ s_dec h = q_dec r /\ s_freq h = q_freq r /\ s_fills h = q_fills r /\
  s_errors h = q_errors r /\ s_beam h = q_beam r /\ s_format h = q_format r /\ s_nints h = q_nints r /\ s_sats h = q_sats r /\
  map fst (sf_out s) = products (q_format r) /\
  forall j, 0 <= j < zlen (products (q_format r)) ->
    let b := znth 0 j (products (q_format r)) in
    znth (0, ([], [])) j (sf_out s) = (b, (spectrum r 0 b j, spectrum r 1 b j)).
