(** Property theorems (generated from P_BusyT.v by tools/gen_theorems.py). *)
From Coq Require Import List ZArith Bool Lia.
From Verif Require Import M_Str M_Bar S_Bar P_Str P_Bar P_BusyT.
Import ListNotations.
Open Scope Z_scope.
Ltac Zify.zify_post_hook ::= Z.div_mod_to_equations.

Theorem C53_dots : forall message dots n k, 0 <= dots -> (k < n)%nat ->
  let d := Z.of_nat k mod (dots + 1) in
  nth k (busy_texts message dots n 0) [] = message ++ repeat 46 (Z.to_nat d) ++ repeat 32 (Z.to_nat (dots - d)) /\
  Z.of_nat (length (nth k (busy_texts message dots n 0) [])) = Z.of_nat (length message) + dots.
Proof. exact C53_dots_proof. Qed.
Print Assumptions C53_dots.

Theorem C53_boomerang : forall w n, 2 <= w -> exists l, frames Boomerang w n = Some l /\ length l = n /\
  forall k, (k < n)%nat -> let p := boomerang_at w (Z.of_nat k) in
  0 <= p < w /\ blank_but w (fun j => j = p) (nth (Z.to_nat (p mod 4)) [124; 47; 45; 92] 0) (nth k l []).
Proof. exact C53_boomerang_proof. Qed.
Print Assumptions C53_boomerang.

Theorem C53_pingpong : forall w n, 4 <= w -> exists l, frames Pingpong w n = Some l /\ length l = n /\
  forall k, (k < n)%nat -> ball w (pingpong_at w (Z.of_nat k)) (nth k l []).
Proof. exact C53_pingpong_proof. Qed.
Print Assumptions C53_pingpong.

(** flow: from width 3 on every text of any run has [width] characters, blank but for three '>' at the places k - 2,
    k - 1 and k, counted round. *)
Theorem C53_flow : forall w n, 3 <= w -> exists l, frames Flow w n = Some l /\ length l = n /\
  forall k, (k < n)%nat -> blank_but w (fun j => (Z.of_nat k - j) mod w < 3) 62 (nth k l []).
Proof. exact C53_flow_proof. Qed.
Print Assumptions C53_flow.

(** Smaller widths: pingpong in 3 places moves out of the text and grows, boomerang in 0 places and flow in 1 raise
    IndexError at the first text. *)
Theorem C53_small_width_refuted :
  (exists l, frames Pingpong 3 10 = Some l /\ map (fun s => Z.of_nat (length s)) l = [3; 4; 5; 6; 7; 8; 9; 10; 11; 12]) /\
  frames Boomerang 0 1 = None /\ frames Flow 1 1 = None.
Proof. exact C53_small_width_refuted_proof. Qed.
Print Assumptions C53_small_width_refuted.

(** stop() draws once more in its own thread before it tells the indicator thread to end.  If no other drawing is in
    progress that is as good as one more text; but if the other thread has just moved the mark out of the text,
    stop() raises IndexError and the indicator thread is never told to end. *)
Theorem C53_stop_refuted : exists before during, one_drawing = before ++ during /\
  (exists s s', bsteps 2 one_drawing (mkSh 0 1) = Some s /\ bsteps 2 before s = Some s' /\ bsteps 2 one_drawing s' = None) /\
  forall w, 2 <= w -> forall n, exists s, bsteps w (concat (repeat one_drawing n)) (mkSh 0 1) = Some s.
Proof. exact C53_stop_refuted_proof. Qed.
Print Assumptions C53_stop_refuted.

(** Texts of the three styles. *)
Example C53_frames_example :
  frames Boomerang 3 6 = Some [[124; 32; 32]; [32; 47; 32]; [32; 32; 45]; [32; 47; 32]; [124; 32; 32]; [124; 32; 32]] /\
  frames Pingpong 5 5 = Some [[41; 111; 32; 32; 124]; [124; 32; 111; 32; 124]; [124; 32; 32; 111; 40]; [124; 32; 111; 32; 124]; [41; 111; 32; 32; 124]] /\
  frames Flow 5 3 = Some [[62; 32; 32; 62; 62]; [62; 62; 32; 32; 62]; [62; 62; 62; 32; 32]].
Proof. exact C53_frames_example_proof. Qed.
