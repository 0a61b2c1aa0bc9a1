(** Model of the NDP/MCS word conversions (lsl/common/ndp.py 66-148, mcs.py 526-573)
    and of flat_to_multi (mcs.py 778-794). *)
From Coq Require Import List ZArith QArith Qround Bool.
From Verif Require Export M_Py LibList LibBytes M_Num.
From Verif Require Import M_Time.
Import ListNotations.
Open Scope Z_scope.

(** freq_to_word (ndp.py 66-71); [e]: floating point error of freq*2**32/fS, in words *)
Definition freq_to_word (e : Q) (freq : Q) : Z := py_round (freq * inject_Z (2 ^ 32) / inject_Z fS + e)%Q.
(** word_to_freq (ndp.py 74-79) *)
Definition word_to_freq (word : Z) : Q := (inject_Z word * inject_Z fS / inject_Z (2 ^ 32))%Q.

(** the byte exchange written out in each function (ndp.py 98, 109, 131, 143; _two_byte_swap mcs.py 526-527) *)
Definition two_byte_swap (value : Z) : Z :=
  Z.lor (Z.shiftl (Z.land value 255) 8) (Z.land (Z.shiftr value 8) 255).

(** delay_to_ndpd (ndp.py 82-100), from the delay in samples, delay*(fS/1e9) *)
Definition ndpd_of_sample (sample : Q) : Z :=
  let course := py_int sample in
  let fine := py_int (16 * (sample - inject_Z course))%Q in
  two_byte_swap (Z.lor (Z.shiftl course 4) fine).
Definition delay_to_ndpd (delay : Q) : Z := ndpd_of_sample (delay * (inject_Z fS / 1000000000))%Q.
(** ndpd_to_delay (ndp.py 103-118) *)
Definition ndpd_samples (combined : Z) : Q :=
  let c := two_byte_swap combined in
  (inject_Z (Z.land (Z.shiftr c 4) 4095) + inject_Z (Z.land c 15) / 16)%Q.
Definition ndpd_to_delay (combined : Z) : Q := (ndpd_samples combined * (1000000000 / inject_Z fS))%Q.
(** The same two functions bit-exactly in binary64.  sample - course and the factors 16 are exact there. *)
Definition ndpd_to_delay_b64 (combined : Z) : Floats.SpecFloat.spec_float :=
  let c := two_byte_swap combined in
  b64_mul (b64_add (b64z (Z.land (Z.shiftr c 4) 4095)) (b64_div (b64z (Z.land c 15)) (b64z 16)))
          (b64_div (b64z 1000000000) (b64z fS)).
Definition delay_to_ndpd_b64 (delay : Floats.SpecFloat.spec_float) : Z :=
  ndpd_of_sample (b64_q (b64_mul delay (b64_div (b64z fS) (b64z 1000000000)))).

(** gain_to_ndpg (ndp.py 121-133), ndpg_to_gain (136-148) *)
Definition gain_to_ndpg (gain : Q) : Z := two_byte_swap (py_int (32767 * gain)%Q).
Definition ndpg_to_gain (combined : Z) : Q := (inject_Z (two_byte_swap combined) / 32767)%Q.

(** delay_to_mcsd, mcsd_to_delay, gain_to_mcsg, mcsg_to_gain (mcs.py 530-573) *)
Definition delay_to_mcsd (delay : Q) : Z := two_byte_swap (delay_to_ndpd delay).
Definition mcsd_to_delay (delay : Z) : Q := ndpd_to_delay (two_byte_swap delay).
Definition gain_to_mcsg (gain : Q) : Z := two_byte_swap (gain_to_ndpg gain).
Definition mcsg_to_gain (gain : Z) : Q := ndpg_to_gain (two_byte_swap gain).

(** ** flat_to_multi *)
Inductive nest (A : Type) := Leaf (a : A) | Node (l : list (nest A)).
Arguments Leaf {A} _. Arguments Node {A} _.
(** [l[i:i+n] for i in range(0, len(l), n)]: range raises on step 0 and is empty for a
    negative step *)
Definition chunks {A} (n : Z) (l : list (nest A)) : res (list (nest A)) :=
  if n =? 0 then Raise ValueError
  else if n <? 0 then Ok []
  else Ok (map (fun j => Node (ztake n (zdrop (n * j) l))) (zseq 0 (Z.to_nat ((zlen l + n - 1) / n)))).
(** the while loop: the shape is given reversed, the last dimension first *)
Fixpoint fold_dims {A} (rshape : list Z) (l : list (nest A)) : res (list (nest A)) :=
  match rshape with
  | [] => Ok l
  | n :: rest => match rest with [] => Ok l | _ => bind (chunks n l) (fold_dims rest) end
  end.
Definition flat_to_multi {A} (input : list A) (shape : list Z) : res (nest A) :=
  if negb (fold_left Z.mul shape 1 =? zlen input) then Raise ValueError
  else bind (fold_dims (rev shape) (map Leaf input)) (fun l => Ok (Node l)).
