(** Property theorems (generated from P_ParserT.v by tools/gen_theorems.py). *)
From Coq Require Import List ZArith Bool Lia.
From Verif Require Import M_Str M_Parser S_Parser P_Str P_Parser P_ParserT.
Import ListNotations.
Open Scope Z_scope.

(** csv_int_list gives 'all' and 'none' for exactly the documented words.  Of any other string it makes the
    concatenation of the values of its comma-separated fields, each blank, an integer or first~last, and it rejects
    the string when there is no such reading.  No other exception leaves it. *)
Theorem C43_int_list : forall s,
  (csv_int_list s = Value All <-> s = s_all \/ s = s_star) /\
  (csv_int_list s = Value NoneOf <-> s = s_none \/ s = []) /\
  (forall l, csv_int_list s = Value (Items l) <-> ~ special s /\ exists fs ls, fields s fs /\ Forall2 int_field fs ls /\ l = concat ls) /\
  (csv_int_list s = Rejected <-> ~ special s /\ ~ exists fs ls, fields s fs /\ Forall2 int_field fs ls) /\
  (forall e, csv_int_list s <> Crash e).
Proof. exact C43_int_list_proof. Qed.
Print Assumptions C43_int_list.

(** csv_baseline_list: the same, each field being blank or ant1-ant2 where both sides are an integer or first~last. *)
Theorem C43_baseline_list : forall s,
  (csv_baseline_list s = Value All <-> s = s_all \/ s = s_star) /\
  (csv_baseline_list s = Value NoneOf <-> s = s_none \/ s = []) /\
  (forall l, csv_baseline_list s = Value (Items l) <-> ~ special s /\ exists fs ls, fields s fs /\ Forall2 baseline_field fs ls /\ l = concat ls) /\
  (csv_baseline_list s = Rejected <-> ~ special s /\ ~ exists fs ls, fields s fs /\ Forall2 baseline_field fs ls) /\
  (forall e, csv_baseline_list s <> Crash e).
Proof. exact C43_baseline_list_proof. Qed.
Print Assumptions C43_baseline_list.

(** csv_hostname_list: each field is blank, an IPv4 address whose bytes may be spans, a name followed by
    first~last, or a plain name. *)
Theorem C43_hostname_list : forall s,
  (forall l, csv_hostname_list s = Value l <-> exists fs ls, fields s fs /\ Forall2 host_field fs ls /\ l = concat ls) /\
  (csv_hostname_list s = Rejected <-> ~ exists fs ls, fields s fs /\ Forall2 host_field fs ls) /\
  (forall e, csv_hostname_list s <> Crash e).
Proof. exact C43_hostname_list_proof. Qed.
Print Assumptions C43_hostname_list.

(** positive_or_zero_int and positive_int accept exactly the integers in range. *)
Theorem C43_positive_int : forall s n,
  (positive_or_zero_int s = Value n <-> int_text s n /\ 0 <= n) /\ (positive_int s = Value n <-> int_text s n /\ 0 < n) /\
  (positive_int s = Rejected <-> ~ exists m, int_text s m /\ 0 < m).
Proof. exact C43_positive_int_proof. Qed.
Print Assumptions C43_positive_int.

(** Reading back what was written: a list of integers printed in base 10 with commas is read back unchanged. *)
Theorem C43_int_list_round_trip : forall l, l <> [] -> csv_int_list (join 44 (map dec l)) = Value (Items l).
Proof. exact C43_int_list_round_trip_proof. Qed.
Print Assumptions C43_int_list_round_trip.

Example C43_int_list_example :
  csv_int_list [49; 44; 32; 52; 126; 54; 44; 45; 50; 44] = Value (Items [1; 4; 5; 6; -2]) /\       (* "1, 4~6,-2," *)
  csv_int_list [53; 126; 51] = Value (Items []) /\ csv_int_list [49; 44; 120] = Rejected /\ csv_int_list s_star = Value All /\
  csv_baseline_list [49; 126; 50; 45; 53; 44; 55; 45; 45; 56] = Value (Items [(1, 5); (2, 5); (7, -8)]) /\  (* "1~2-5,7--8" *)
  csv_baseline_list [49] = Rejected.
Proof. exact C43_int_list_example_proof. Qed.

Example C43_hostname_list_example :
  csv_hostname_list [49; 46; 50; 46; 51; 126; 52; 46; 55; 126; 56] =   (* "1.2.3~4.7~8" *)
    Value [[49; 46; 50; 46; 51; 46; 55]; [49; 46; 50; 46; 51; 46; 56]; [49; 46; 50; 46; 52; 46; 55]; [49; 46; 50; 46; 52; 46; 56]] /\
  csv_hostname_list [97; 57; 126; 49; 49; 44; 98; 99] = Value [[97; 57]; [97; 49; 48]; [97; 49; 49]; [98; 99]] /\ (* "a9~11,bc" *)
  csv_hostname_list [97; 95] = Rejected /\ csv_hostname_list [97; 46; 98; 46; 99] = Rejected.
Proof. exact C43_hostname_list_example_proof. Qed.

Example C43_positive_int_example : positive_int [32; 52; 50] = Value 42 /\ positive_int [48] = Rejected /\ positive_or_zero_int [48] = Value 0 /\ positive_int [120] = Rejected.
Proof. exact C43_positive_int_example_proof. Qed.

(** Malformed input is not always rejected: an address with bytes above 255 is accepted ("999.0.0.1"), and the
    leading zeros of a name range are lost, so "n01~02" stands for n1 and n2. *)
Theorem C43_hostname_malformed_refuted :
  csv_hostname_list [57; 57; 57; 46; 48; 46; 48; 46; 49] = Value [[57; 57; 57; 46; 48; 46; 48; 46; 49]] /\
  csv_hostname_list [110; 48; 49; 126; 48; 50] = Value [[110; 49]; [110; 50]].
Proof. exact C43_hostname_malformed_refuted_proof. Qed.
Print Assumptions C43_hostname_malformed_refuted.

(** An empty (or blank) hours or degrees list is not rejected: string[-1] raises IndexError, whatever the items are. *)
Theorem C43_angle_list_empty_refuted : forall A (f : str -> option A), csv_angle_list f [] = Crash IndexError /\ csv_angle_list f [32; 32] = Crash IndexError.
Proof. exact C43_angle_list_empty_refuted_proof. Qed.
Print Assumptions C43_angle_list_empty_refuted.

(** With a first non-blank character the angle lists give every item, in order, or reject. *)
Theorem C43_angle_list : forall A (f : str -> option A) s, ~ spaces s ->
  exists body, (rstrip s = body /\ (forall r, body <> r ++ [44]) \/ rstrip s = body ++ [44]) /\
    (forall l, csv_angle_list f s = Value l <-> exists fs, fields body fs /\ Forall2 (fun t v => f t = Some v) fs l) /\
    (csv_angle_list f s = Rejected <-> ~ exists fs l, fields body fs /\ Forall2 (fun t v => f t = Some v) fs l) /\
    (forall e, csv_angle_list f s <> Crash e).
Proof. exact C43_angle_list_proof. Qed.
Print Assumptions C43_angle_list.

Example C43_angle_list_example : ~ spaces [49; 44; 50; 44; 32] /\ csv_angle_list parse_int [49; 44; 50; 44; 32] = Value [1; 2] /\ csv_angle_list parse_int [49; 44; 44] = Rejected.
Proof. exact C43_angle_list_example_proof. Qed.
