(** What reading a DR spectrometer recording should return, stated on the recorded frames. *)
From Coq Require Import List ZArith Bool.
From Verif Require Import LibBytes M_LdpSpec S_Drspec S_DrspecRun.
Import ListNotations.
Open Scope Z_scope.

(** Both magic words of a frame header at byte [i]: 0xC0DEC0DE and, 72 bytes on, 0xED0CED0C *)
Definition header_at (l : list Z) (i : Z) : Prop :=
  slice i 4 l = [222; 192; 222; 192] /\ slice (i + 72) 4 l = [12; 237; 12; 237].
(** [junk] is not data: no frame header starts in it *)
Definition no_header (junk rest : list Z) : Prop := forall i, 0 <= i < zlen junk -> ~ header_at (junk ++ rest) i.

(** The time of a frame and its integration time, in samples at 196 MHz. *)
Definition frame_time (r : drs_rec) : Z := q_tag r - q_toff r.
Definition frame_tint (r : drs_rec) : Z := q_nints r * q_nfreq r * q_dec r.

(** A frame as the spectrometer writes it: one of its formats, at least a channel, a positive integration time,
    normalisations below 2^32. *)
Definition good_frame (r : drs_rec) : Prop :=
  drs_ok r /\ In (q_format r) drs_formats /\ 0 < frame_tint r /\
  forall t b, t = 0 \/ t = 1 -> In b (products (q_format r)) -> q_nfreq r * fills_of r t b < 2 ^ 32.
(** The same products, channels and integration time. *)
Definition same_setup (r r' : drs_rec) : Prop :=
  q_format r' = q_format r /\ q_nfreq r' = q_nfreq r /\ q_nints r' = q_nints r /\ q_dec r' = q_dec r.
Definition recording (r0 : drs_rec) (rs : list drs_rec) : Prop := Forall (fun r => good_frame r /\ same_setup r0 r) (r0 :: rs).

(** No jump ahead by more than 1.001 integration times. *)
Fixpoint no_jump (tint : Z) (rs : list drs_rec) : Prop :=
  match rs with
  | r :: (r' :: _) as l => 1000 * (frame_time r' - frame_time r) <= 1001 * tint /\ no_jump tint l
  | _ => True
  end.

(** The array for [n] frames with the frames [rs] in it: for each tuning, for each product, the spectra
    in time order; zeros in what remains. *)
Definition spectra (fmt nfreq : Z) (n : nat) (rs : list drs_rec) : list (list (list scell)) :=
  flat_map (fun t => map (fun j => map (fun r => map SCell (spectrum r t (znth 0 j (products fmt)) j)) rs ++
                                   repeat (repeat (SCell CZero) (Z.to_nat nfreq)) (n - length rs))
                         (zseq 0 (length (products fmt))))
           [0; 1].

(** The outputs of reads of [ns] frames (0 counts as 1) from a file in which [rs] is left: each frame once, in order, then EOFError. *)
Definition asked (n : Z) : nat := Z.to_nat (Z.max n 1).
Fixpoint returned (r0 : drs_rec) (ns : list Z) (rs : list drs_rec) : list (res (nat * option Z * list (list (list scell)))) :=
  match ns with
  | [] => []
  | n :: ns' =>
      match rs with
      | [] => Raise EOFError :: returned r0 ns' []
      | r :: _ => let now := firstn (asked n) rs in
                  Ok (length now, Some (frame_time r), spectra (q_format r0) (q_nfreq r0) (asked n) now)
                  :: returned r0 ns' (skipn (asked n) rs)
      end
  end.
