(** Theorems about the busy indicators. *)
From Coq Require Import List ZArith Bool Lia.
From Verif Require Import M_Str M_Bar S_Bar P_Str P_Bar.
Import ListNotations.
Open Scope Z_scope.
Ltac Zify.zify_post_hook ::= Z.div_mod_to_equations.

Lemma set_at_spec : forall i c l, let k := if i <? 0 then i + Z.of_nat (length l) else i in
  0 <= k < Z.of_nat (length l) -> exists s, set_at i c l = Some s /\ length s = length l /\
  nth (Z.to_nat k) s 0 = c /\ forall j, j <> Z.to_nat k -> nth j s 0 = nth j l 0.
Proof.
  intros i c l k K. unfold set_at. fold k. replace ((0 <=? k) && (k <? Z.of_nat (length l))) with true by (symmetry; apply andb_true_iff; split; [apply Z.leb_le|apply Z.ltb_lt]; lia).
  eexists. split; [reflexivity|]. remember (Z.to_nat k) as n eqn:EN. assert (N : (n < length l)%nat) by lia. clear EN K. clearbody k. clear k.
  split; [|split].
  - rewrite app_length. cbn [length]. rewrite firstn_length, skipn_length. lia.
  - rewrite app_nth2; rewrite firstn_length; [|lia]. replace (n - Nat.min n (length l))%nat with 0%nat by lia. reflexivity.
  - intros j J. destruct (Nat.lt_ge_cases j n).
    + rewrite app_nth1 by (rewrite firstn_length; lia). clear -N H J; revert l j N H J; induction n as [|n IH]; intros l j N H J; [lia|]. destruct l as [|a l]; [cbn in N; lia|]. destruct j as [|j]; [reflexivity|]. cbn. apply IH; cbn in N; lia.
    + rewrite app_nth2 by (rewrite firstn_length; lia). rewrite firstn_length. replace (j - Nat.min n (length l))%nat with (S (j - n - 1))%nat by lia. cbn [nth].
      clear -N H J; revert l j N H J; induction n as [|n IH]; intros l j N H J.
      * destruct l as [|a l]; [cbn in N; lia|]. destruct j as [|j]; [lia|]. cbn [skipn]. replace (S j - 0 - 1)%nat with j by lia. reflexivity.
      * destruct l as [|a l]; [cbn in N; lia|]. destruct j as [|j]; [lia|]. cbn [length] in N. change (skipn (S (S n)) (a :: l)) with (skipn (S n) l). change (nth (S j) (a :: l) 0) with (nth j l 0). rewrite <- (IH l j) by lia. f_equal; lia.
Qed.
Lemma nth_rep : forall c n j, (j < Z.to_nat n)%nat -> nth j (rep c n) 0 = c.
Proof. intros c n j H. unfold rep. rewrite nth_indep with (d' := c) by (rewrite repeat_length; auto). apply nth_repeat. Qed.
Lemma frames_app : forall s w n i d (at_ : Z -> Z) (dir : Z -> Z) (P : Z -> str -> Prop),
  (forall k, 0 <= k -> exists out, render s w (at_ k) (dir k) = Some (out, at_ (k + 1), dir (k + 1)) /\ P k out) ->
  forall k0, 0 <= k0 -> i = at_ k0 -> d = dir k0 ->
  exists l, frames_from s w n i d = Some l /\ length l = n /\ forall k, (k < n)%nat -> P (k0 + Z.of_nat k) (nth k l []).
Proof.
  intros s w n i d at_ dir P H. revert i d. induction n as [|n IH]; intros i d k0 K I D.
  - exists []. repeat split. intros; lia.
  - destruct (H k0 K) as [out [R Q]]. cbn [frames_from]. subst i d. rewrite R. destruct (IH (at_ (k0 + 1)) (dir (k0 + 1)) (k0 + 1) ltac:(lia) eq_refl eq_refl) as [l [F [L N]]].
    rewrite F. exists (out :: l). split; [reflexivity|]. split; [cbn; lia|]. intros [|k] KN; cbn [nth].
    + replace (k0 + Z.of_nat 0) with k0 by lia. exact Q.
    + replace (k0 + Z.of_nat (S k)) with (k0 + 1 + Z.of_nat k) by lia. apply N. lia.
Qed.

(** BusyIndicator: the k-th text is the message, k mod (dots + 1) dots and blanks: always as long as the message and
    all dots. *)
Fixpoint busy_texts (message : str) (dots : Z) (n : nat) (i : Z) : list str :=
  match n with O => [] | S k => fst (busy_frame message dots i) :: busy_texts message dots k (snd (busy_frame message dots i)) end.
Lemma C53_dots_proof : forall message dots n k, 0 <= dots -> (k < n)%nat ->
  let d := Z.of_nat k mod (dots + 1) in
  nth k (busy_texts message dots n 0) [] = message ++ repeat 46 (Z.to_nat d) ++ repeat 32 (Z.to_nat (dots - d)) /\
  Z.of_nat (length (nth k (busy_texts message dots n 0) [])) = Z.of_nat (length message) + dots.
Proof.
  intros message dots n k D K. cbn zeta.
  assert (G : forall n k k0, 0 <= k0 -> (k < n)%nat -> nth k (busy_texts message dots n (k0 mod (dots + 1))) [] = fst (busy_frame message dots ((k0 + Z.of_nat k) mod (dots + 1)))).
  { clear n k K. induction n as [|n IH]; intros k k0 K0 K; [lia|]. cbn [busy_texts]. destruct k as [|k]; cbn [nth]; [f_equal; f_equal; f_equal; lia|].
    replace (snd (busy_frame message dots (k0 mod (dots + 1)))) with ((k0 + 1) mod (dots + 1)) by (cbn [busy_frame snd]; rewrite Z.add_mod_idemp_l by lia; reflexivity).
    rewrite IH by lia. f_equal. f_equal. f_equal. lia. }
  specialize (G n k 0 ltac:(lia) K). rewrite Z.mod_0_l, Z.add_0_l in G by lia. rewrite G. cbn [busy_frame fst]. pose proof (Z.mod_pos_bound (Z.of_nat k) (dots + 1) ltac:(lia)) as B. split; [reflexivity|].
  rewrite !len_app, !rep_len by lia. lia.
Qed.

(** boomerang: from width 2 on, every text of any run has [width] characters, blank but for the mark, which goes to and
    fro between the ends and turns as it moves (it stays at the left end for two texts). *)
Definition boomerang_dir (w k : Z) : Z := let r := k mod (2 * w - 1) in if r <? w then 1 else -1.
Lemma C53_boomerang_proof : forall w n, 2 <= w -> exists l, frames Boomerang w n = Some l /\ length l = n /\
  forall k, (k < n)%nat -> let p := boomerang_at w (Z.of_nat k) in
  0 <= p < w /\ blank_but w (fun j => j = p) (nth (Z.to_nat (p mod 4)) [124; 47; 45; 92] 0) (nth k l []).
Proof.
  intros w n W. unfold frames.
  assert (R : forall k, 0 <= k -> exists out, render Boomerang w (boomerang_at w k) (boomerang_dir w k) = Some (out, boomerang_at w (k + 1), boomerang_dir w (k + 1)) /\
    (0 <= boomerang_at w k < w /\ blank_but w (fun j => j = boomerang_at w k) (nth (Z.to_nat (boomerang_at w k mod 4)) [124; 47; 45; 92] 0) out)).
  { intros k K. cbn [render]. unfold boomerang. set (p := boomerang_at w k). assert (P : 0 <= p < w) by (subst p; unfold boomerang_at; pose proof (Z.mod_pos_bound k (2 * w - 1) ltac:(lia)); cbn zeta; destruct (Z.ltb_spec (k mod (2 * w - 1)) w); lia).
    destruct (set_at_spec p (nth (Z.to_nat (p mod 4)) [124; 47; 45; 92] 0) (rep 32 w)) as [s [S [L [N1 N2]]]].
    { destruct (Z.ltb_spec p 0); [lia|]. rewrite rep_len by lia. lia. }
    rewrite S. destruct (Z.ltb_spec p 0); [lia|].
    assert (NX : (k + 1) mod (2 * w - 1) = if k mod (2 * w - 1) =? 2 * w - 2 then 0 else k mod (2 * w - 1) + 1).
    { clear -W K. pose proof (Z.div_mod k (2 * w - 1) ltac:(lia)) as E. pose proof (Z.mod_pos_bound k (2 * w - 1) ltac:(lia)) as B. set (q := k / (2 * w - 1)) in *. set (r := k mod (2 * w - 1)) in *.
      destruct (Z.eqb_spec r (2 * w - 2)); symmetry; [apply Z.mod_unique with (q := q + 1)|apply Z.mod_unique with (q := q)]; nia. }
    exists s. split.
    - subst p. unfold boomerang_at, boomerang_dir in *. cbn zeta in *. rewrite NX. clear NX. pose proof (Z.mod_pos_bound k (2 * w - 1) ltac:(lia)) as B. set (r := k mod (2 * w - 1)) in *. clearbody r.
      destruct (Z.eqb_spec r (2 * w - 2)); destruct (Z.ltb_spec r w); try lia; cbn [Z.ltb];
      repeat match goal with |- context [?a <? ?b] => destruct (Z.ltb_spec a b); try lia | |- context [?a =? ?b] => destruct (Z.eqb_spec a b); try lia end; f_equal; f_equal; try f_equal; lia.
    - split; [auto|]. split; [rewrite L; apply rep_len; lia|]. intros j J. split; [intros ->; exact N1|]. intro NE. rewrite N2 by lia. apply nth_rep. lia. }
  destruct (frames_app Boomerang w n 0 1 (boomerang_at w) (boomerang_dir w) _ R 0 ltac:(lia)) as [l [F [L N]]].
  - unfold boomerang_at. rewrite Z.mod_0_l by lia. cbn zeta. destruct (Z.ltb_spec 0 w); lia.
  - unfold boomerang_dir. rewrite Z.mod_0_l by lia. cbn zeta. destruct (Z.ltb_spec 0 w); lia.
  - exists l. split; [auto|]. split; [auto|]. intros k K. apply N. auto.
Qed.

(** pingpong: from width 4 on every text of any run has [width] characters and the ball is one place further to the right or left each time. *)
Definition pingpong_dir (w k : Z) : Z := let r := k mod (2 * (w - 3)) in if r =? 0 then (if k =? 0 then 1 else -1) else if r <=? w - 3 then 1 else -1.
Definition ball (w p : Z) (s : str) : Prop := Z.of_nat (length s) = w /\ nth (Z.to_nat (p + 1)) s 0 = 111 /\ forall j, 0 <= j < w -> nth (Z.to_nat j) s 0 = 111 -> j = p + 1.
Lemma pp_text : forall w p d, 4 <= w -> 0 <= p <= w - 3 -> exists out, pingpong true w p d = Some (out, p + (if p =? 0 then 1 else if p =? w - 3 then -1 else d), if p =? 0 then 1 else if p =? w - 3 then -1 else d) /\ ball w p out.
Proof.
  intros w p d W P. unfold pingpong.
  assert (X : forall l q a b c r, l = a :: rep 32 q ++ b :: rep 32 r ++ [c] -> 0 <= q -> 0 <= r -> Z.of_nat (length l) = q + r + 3).
  { intros l q a b c r -> Q R. rewrite len_cons, len_app, len_cons, len_app, !rep_len by lia. cbn [length]. lia. }
  assert (Y : forall q a b c r j, 0 <= q -> 0 <= r -> 0 <= j < q + r + 3 -> nth (Z.to_nat j) (a :: rep 32 q ++ b :: rep 32 r ++ [c]) 0 = if j =? 0 then a else if j =? q + 1 then b else if j =? q + r + 2 then c else 32).
  { intros q a b c r j Q R J. destruct (Z.eqb_spec j 0); [subst; reflexivity|]. replace (Z.to_nat j) with (S (Z.to_nat (j - 1))) by lia. cbn [nth].
    destruct (Z.eqb_spec j (q + 1)).
    - rewrite app_nth2; unfold rep; rewrite repeat_length; [|lia]. replace (Z.to_nat (j - 1) - Z.to_nat q)%nat with 0%nat by lia. reflexivity.
    - destruct (Z.ltb_spec j (q + 1)).
      + rewrite app_nth1 by (unfold rep; rewrite repeat_length; lia). destruct (Z.eqb_spec j (q + r + 2)); [lia|]. apply nth_rep. lia.
      + assert (RQ : length (rep 32 q) = Z.to_nat q) by (unfold rep; apply repeat_length). rewrite app_nth2; rewrite RQ; [|lia]. replace (Z.to_nat (j - 1) - Z.to_nat q)%nat with (S (Z.to_nat (j - q - 2))) by lia. cbn [nth].
        destruct (Z.eqb_spec j (q + r + 2)).
        * rewrite app_nth2; unfold rep; rewrite repeat_length; [|lia]. replace (Z.to_nat (j - q - 2) - Z.to_nat r)%nat with 0%nat by lia. reflexivity.
        * rewrite app_nth1 by (unfold rep; rewrite repeat_length; lia). apply nth_rep. lia. }
  assert (B : forall q a c r, 0 <= q -> 0 <= r -> a <> 111 -> c <> 111 -> q + r + 3 = w -> ball w q (a :: rep 32 q ++ 111 :: rep 32 r ++ [c])).
  { intros q a c r Q R A C E. split; [rewrite (X _ q a 111 c r eq_refl); lia|]. split.
    - rewrite Y by lia. destruct (Z.eqb_spec (q + 1) 0); [lia|]. rewrite Z.eqb_refl. reflexivity.
    - intros j J H. rewrite Y in H by lia. destruct (Z.eqb_spec j 0); [congruence|]. destruct (Z.eqb_spec j (q + 1)); [auto|]. destruct (Z.eqb_spec j (q + r + 2)); congruence. }
  destruct (Z.eqb_spec p 0); [|destruct (Z.eqb_spec p (w - 3))].
  - eexists. split; [reflexivity|]. subst p. apply (B 0 41 124 (w - 3)); lia.
  - eexists. split; [reflexivity|]. rewrite e. apply (B (w - 3) 124 40 0); lia.
  - eexists. split; [reflexivity|]. apply (B p 124 124 (w - p - 3)); lia.
Qed.
Lemma C53_pingpong_proof : forall w n, 4 <= w -> exists l, frames Pingpong w n = Some l /\ length l = n /\
  forall k, (k < n)%nat -> ball w (pingpong_at w (Z.of_nat k)) (nth k l []).
Proof.
  intros w n W. unfold frames.
  assert (R : forall k, 0 <= k -> exists out, render Pingpong w (pingpong_at w k) (pingpong_dir w k) = Some (out, pingpong_at w (k + 1), pingpong_dir w (k + 1)) /\ ball w (pingpong_at w k) out).
  { intros k K. cbn [render]. set (p := pingpong_at w k). assert (P : 0 <= p <= w - 3) by (subst p; unfold pingpong_at; pose proof (Z.mod_pos_bound k (2 * (w - 3)) ltac:(lia)); cbn zeta; destruct (Z.leb_spec (k mod (2 * (w - 3))) (w - 3)); lia).
    destruct (pp_text w p (pingpong_dir w k) W P) as [out [E B]]. rewrite E. exists out. split; [|auto]. subst p.
    assert (NX : (k + 1) mod (2 * (w - 3)) = if k mod (2 * (w - 3)) =? 2 * (w - 3) - 1 then 0 else k mod (2 * (w - 3)) + 1).
    { clear -W K. pose proof (Z.div_mod k (2 * (w - 3)) ltac:(lia)) as E. pose proof (Z.mod_pos_bound k (2 * (w - 3)) ltac:(lia)) as B. set (q := k / (2 * (w - 3))) in *. set (r := k mod (2 * (w - 3))) in *.
      destruct (Z.eqb_spec r (2 * (w - 3) - 1)); symmetry; [apply Z.mod_unique with (q := q + 1)|apply Z.mod_unique with (q := q)]; nia. }
    unfold pingpong_at, pingpong_dir in *. cbn zeta in *. rewrite NX. clear NX E B. pose proof (Z.mod_pos_bound k (2 * (w - 3)) ltac:(lia)) as B. set (r := k mod (2 * (w - 3))) in *. clearbody r.
    f_equal. repeat match goal with
      | |- context [?a =? ?b] => destruct (Z.eqb_spec a b); try lia
      | |- context [?a <=? ?b] => destruct (Z.leb_spec a b); try lia end; f_equal; try f_equal; lia. }
  destruct (frames_app Pingpong w n 0 1 (pingpong_at w) (pingpong_dir w) _ R 0 ltac:(lia)) as [l [F [L N]]].
  - unfold pingpong_at. rewrite Z.mod_0_l by lia. cbn zeta. destruct (Z.leb_spec 0 (w - 3)); lia.
  - unfold pingpong_dir. rewrite Z.mod_0_l by lia. reflexivity.
  - exists l. split; [auto|]. split; [auto|]. intros k K. apply N. auto.
Qed.

(** flow: from width 3 on every text of any run has [width] characters, blank but for three '>' at the places k - 2,
    k - 1 and k, counted round. *)
Lemma C53_flow_proof : forall w n, 3 <= w -> exists l, frames Flow w n = Some l /\ length l = n /\
  forall k, (k < n)%nat -> blank_but w (fun j => (Z.of_nat k - j) mod w < 3) 62 (nth k l []).
Proof.
  intros w n W. unfold frames.
  assert (R : forall k, 0 <= k -> exists out, render Flow w (k mod w) 1 = Some (out, (k + 1) mod w, 1) /\ blank_but w (fun j => (k - j) mod w < 3) 62 out).
  { intros k K. cbn [render]. unfold flow. pose proof (Z.mod_pos_bound k w ltac:(lia)) as B. set (p := k mod w) in *.
    set (a := if p - 2 <? 0 then p - 2 + w else p - 2). set (b := if p - 1 <? 0 then p - 1 + w else p - 1).
    assert (RL : Z.of_nat (length (rep 32 w)) = w) by (apply rep_len; lia).
    destruct (set_at_spec (p - 2) 62 (rep 32 w)) as [s1 [S1 [L1 [N1 O1]]]]; [rewrite RL; destruct (Z.ltb_spec (p - 2) 0); lia|]. rewrite S1. rewrite RL in N1, O1. fold a in N1, O1.
    destruct (set_at_spec (p - 1) 62 s1) as [s2 [S2 [L2 [N2 O2]]]]; [rewrite L1, RL; destruct (Z.ltb_spec (p - 1) 0); lia|]. rewrite S2. rewrite L1, RL in N2, O2. fold b in N2, O2.
    destruct (set_at_spec p 62 s2) as [s3 [S3 [L3 [N3 O3]]]]; [rewrite L2, L1, RL; destruct (Z.ltb_spec p 0); lia|]. rewrite S3. destruct (Z.ltb_spec p 0) as [|_]; [lia|].
    exists s3. split; [subst p; rewrite Z.add_mod_idemp_l by lia; reflexivity|]. split; [rewrite L3, L2, L1; exact RL|]. intros j J.
    assert (E : (k - j) mod w = if j <=? p then p - j else p - j + w).
    { clear -W J B K. pose proof (Z.div_mod k w ltac:(lia)) as E. fold p in E. destruct (Z.leb_spec j p); symmetry; [apply Z.mod_unique with (q := k / w)|apply Z.mod_unique with (q := k / w - 1)]; nia. }
    rewrite E. clear E. assert (A : a = if p - 2 <? 0 then p - 2 + w else p - 2) by reflexivity. assert (BB : b = if p - 1 <? 0 then p - 1 + w else p - 1) by reflexivity. clearbody a b p.
    assert (AB : 0 <= a < w /\ 0 <= b < w) by (destruct (Z.ltb_spec (p - 2) 0), (Z.ltb_spec (p - 1) 0); lia).
    assert (IFF : (if j <=? p then p - j else p - j + w) < 3 <-> j = a \/ j = b \/ j = p) by (destruct (Z.ltb_spec (p - 2) 0), (Z.ltb_spec (p - 1) 0), (Z.leb_spec j p); lia).
    split; intro H.
    - apply IFF in H. destruct (Z.eq_dec j p); [subst; auto|]. rewrite O3 by lia. destruct (Z.eq_dec j b); [subst; auto|]. rewrite O2 by lia. destruct H as [-> |[-> | ->]]; [auto|contradiction|contradiction].
    - rewrite O3 by intuition lia. rewrite O2 by intuition lia. rewrite O1 by intuition lia. apply nth_rep. lia. }
  destruct (frames_app Flow w n 0 1 (fun k => k mod w) (fun _ => 1) _ R 0 ltac:(lia)) as [l [F [L N]]].
  - rewrite Z.mod_0_l; lia.
  - reflexivity.
  - exists l. split; [auto|]. split; [auto|]. intros k K. apply N. auto.
Qed.

(** Smaller widths: pingpong in 3 places moves out of the text and grows, boomerang in 0 places and flow in 1 raise
    IndexError at the first text. *)
Lemma C53_small_width_refuted_proof :
  (exists l, frames Pingpong 3 10 = Some l /\ map (fun s => Z.of_nat (length s)) l = [3; 4; 5; 6; 7; 8; 9; 10; 11; 12]) /\
  frames Boomerang 0 1 = None /\ frames Flow 1 1 = None.
Proof. split; [eexists; split; vm_compute; reflexivity|]. split; reflexivity. Qed.

(** stop() draws once more in its own thread before it tells the indicator thread to end.  If no other drawing is in
    progress that is as good as one more text; but if the other thread has just moved the mark out of the text,
    stop() raises IndexError and the indicator thread is never told to end. *)
Lemma C53_stop_refuted_proof : exists before during, one_drawing = before ++ during /\
  (exists s s', bsteps 2 one_drawing (mkSh 0 1) = Some s /\ bsteps 2 before s = Some s' /\ bsteps 2 one_drawing s' = None) /\
  forall w, 2 <= w -> forall n, exists s, bsteps w (concat (repeat one_drawing n)) (mkSh 0 1) = Some s.
Proof.
  exists [Draw; Move], [CheckLow; CheckHigh]. split; [reflexivity|]. split.
  - do 2 eexists. split; [vm_compute; reflexivity|]. split; vm_compute; reflexivity.
  - intros w W n.
    assert (G : forall n s, 0 <= sh_i s < w -> (sh_dir s = 1 \/ sh_dir s = -1) -> exists s', bsteps w (concat (repeat one_drawing n)) s = Some s').
    { clear n. induction n as [|n IH]; intros [i d] I D; [eexists; reflexivity|]. cbn [repeat concat]. unfold one_drawing at 1. cbn [app bsteps bstep_run sh_i sh_dir] in *.
      destruct (set_at_spec i 45 (rep 32 w)) as [x [S _]]; [destruct (Z.ltb_spec i 0); [lia|]; rewrite rep_len by lia; lia|]. rewrite S. cbn [sh_i sh_dir].
      destruct (Z.ltb_spec (i + d) 0); cbn [sh_i sh_dir].
      - destruct (Z.eqb_spec (i + d + 1) w); [lia|]. apply IH; cbn; lia.
      - destruct (Z.eqb_spec (i + d) w); cbn [sh_i sh_dir]; apply IH; cbn [sh_i sh_dir]; lia. }
    apply G; cbn; lia.
Qed.
(** Texts of the three styles. *)
Lemma C53_frames_example_proof :
  frames Boomerang 3 6 = Some [[124; 32; 32]; [32; 47; 32]; [32; 32; 45]; [32; 47; 32]; [124; 32; 32]; [124; 32; 32]] /\
  frames Pingpong 5 5 = Some [[41; 111; 32; 32; 124]; [124; 32; 111; 32; 124]; [124; 32; 32; 111; 40]; [124; 32; 111; 32; 124]; [41; 111; 32; 32; 124]] /\
  frames Flow 5 3 = Some [[62; 32; 32; 62; 62]; [62; 62; 32; 32; 62]; [62; 62; 62; 32; 32]].
Proof. vm_compute. auto. Qed.
