(** Property theorems (generated from P_BarT.v by tools/gen_theorems.py). *)
From Coq Require Import List ZArith Bool Lia QArith Qround Qabs Lqa.
From Verif Require Import M_Str M_Bar S_Bar P_Str P_Bar M_Flt P_Flt P_BarT.
Import ListNotations.
Open Scope Z_scope.

(** With and without percentage, for every amount from 0 to max the text is '[', a bar, ']' (and a percentage of six
    characters), together exactly [span] characters. *)
Theorem C35_width : forall F rnd, doubles F rnd -> forall sym a m span, 0 <= a <= m -> 0 < m -> span <= 2 ^ 53 ->
  (9 <= span -> exists b p, show rnd true sym a m span = inr (91 :: b ++ [93; 32] ++ p) /\ bar_of sym (span - 9) b /\ Z.of_nat (length p) = 6 /\
     Z.of_nat (length (91 :: b ++ [93; 32] ++ p)) = span) /\
  (2 <= span -> exists b, show rnd false sym a m span = inr (91 :: b ++ [93]) /\ bar_of sym (span - 2) b /\ Z.of_nat (length (91 :: b ++ [93])) = span).
Proof. exact C35_width_proof. Qed.
Print Assumptions C35_width.

(** The bar runs through its stages in order as the amount grows, from the first (amount 0) to the complete bar
    (amount max). *)
Theorem C35_monotone : forall F rnd, doubles F rnd -> forall sym m w, 0 < m -> 0 <= w <= 2 ^ 53 -> exists v : Z -> Z,
  (forall cap a, 0 <= a <= m -> bar rnd cap sym a m w = inr (stage sym w (v a)) /\ 0 <= v a <= 5 * w) /\
  (forall a b, 0 <= a <= b -> b <= m -> v a <= v b) /\
  v 0 = 0 /\ v m = 5 * w.
Proof. exact C35_monotone_proof. Qed.
Print Assumptions C35_monotone.

(** In exact arithmetic the stage is the integer part of 5 w amount / max. *)
Theorem C35_exact : forall cap sym a m w, 0 <= a <= m -> 0 < m -> 0 <= w ->
  bar (fun x => x) cap sym a m w = inr (stage sym w (5 * w * a / m)).
Proof. exact C35_exact_proof. Qed.
Print Assumptions C35_exact.

Theorem C35_plus_width : forall F rnd, doubles F rnd -> forall sym a m span el, 0 <= a <= m -> 0 < m -> span <= 2 ^ 53 ->
  (forall t, el = Some t -> (0 <= t)%Q /\ (t <= 599940)%Q /\ (inject_Z (m - a) * t <= inject_Z (599940 * a))%Q /\ 599940 * a <= 2 ^ 53) ->
  (9 <= span -> exists s, show_plus rnd true sym a m span el = inr s /\ Z.of_nat (length s) = span + 9) /\
  (2 <= span -> exists s, show_plus rnd false sym a m span el = inr s /\ Z.of_nat (length s) = span + 9).
Proof. exact C35_plus_width_proof. Qed.
Print Assumptions C35_plus_width.

(** The same for DownloadBar. *)
Theorem C35_download_width : forall F rnd, doubles F rnd -> forall sym a m span el, 0 <= a <= m -> 0 < m -> span <= 2 ^ 53 ->
  a <= 999 * 2 ^ 30 -> (forall t, el = Some t -> (0 <= t)%Q /\ (inject_Z a <= inject_Z (999 * 2 ^ 30) * t)%Q) ->
  (10 <= span -> exists s, show_download rnd true sym a m span el = inr s /\ Z.of_nat (length s) = span + 9) /\
  (3 <= span -> exists s, show_download rnd false sym a m span el = inr s /\ Z.of_nat (length s) = span + 9).
Proof. exact C35_download_width_proof. Qed.
Print Assumptions C35_download_width.

(** So ProgressBarPlus and DownloadBar never have [span] characters. *)
Theorem C35_span_refuted : forall F rnd, doubles F rnd -> exists sym a m span s1 s2,
  0 <= a <= m /\ 0 < m /\ show_plus rnd true sym a m span None = inr s1 /\ show_download rnd true sym a m span None = inr s2 /\
  Z.of_nat (length s1) = 79 /\ Z.of_nat (length s2) = 79 /\ span = 70.
Proof. exact C35_span_refuted_proof. Qed.
Print Assumptions C35_span_refuted.

(** Nothing limits the amount to max: beyond it ProgressBar is wider than [span] (amount 2 of 1, span 4). *)
Theorem C35_beyond_max_refuted : forall F rnd, doubles F rnd -> exists sym a m span s, m < a /\ show rnd false sym a m span = inr s /\ Z.of_nat (length s) > span.
Proof. exact C35_beyond_max_refuted_proof. Qed.
Print Assumptions C35_beyond_max_refuted.

(** max = 0: show() raises ZeroDivisionError. *)
Theorem C35_zero_max : forall rnd pp sym a span, show rnd pp sym a 0 span = inl ZeroDivisionError.
Proof. exact C35_zero_max_proof. Qed.
Print Assumptions C35_zero_max.

(** The bar can be complete before the amount is max: 99 of 100 in 20 places. *)
Example C35_complete_early_example : bar (fun x => x) false 61 99 100 20 = inr (repeat 61 20).
Proof. exact C35_complete_early_example_proof. Qed.

Theorem C35_count : forall l, Forall (fun o => match o with Inc k | Dec k => 0 <= k end) l ->
  0 <= fold_left (fun a o => count o a) l 0 <= added l /\
  (forall a k, count (Inc k) a = a + k) /\ (forall a k, k <= a -> count (Dec k) a = a - k) /\ (forall a k, a < k -> count (Dec k) a = a).
Proof. exact C35_count_proof. Qed.
Print Assumptions C35_count.

Example C35_doubles_example : doubles fixed nearest.
Proof. exact C35_doubles_example_proof. Qed.

(** Texts of the three classes: 30 of 100 and 100 of 100 in 20 characters. *)
Example C35_show_example :
  show (fun x => x) true 61 30 100 20 = inr [91; 61; 61; 61; 92; 32; 32; 32; 32; 32; 32; 32; 93; 32; 32; 51; 48; 46; 48; 37] /\
  show_plus (fun x => x) false 61 100 100 8 (Some 75%Q) = inr [91; 61; 61; 61; 61; 61; 61; 93; 32; 32; 32; 32; 49; 109; 49; 53; 115] /\
  show_download (fun x => x) true 61 2048 4096 14 (Some 1%Q) = inr [91; 61; 61; 45; 32; 93; 32; 32; 53; 48; 46; 48; 37; 32; 32; 32; 50; 46; 48; 107; 66; 47; 115].
Proof. exact C35_show_example_proof. Qed.

(** So are the 53-bit floating point numbers, rounded to nearest even (M_Flt; no overflow or underflow). *)
Example C35_doubles_flt_example : doubles F53 fl.
Proof. exact C35_doubles_flt_example_proof. Qed.
