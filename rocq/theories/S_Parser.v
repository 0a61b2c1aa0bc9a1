(** What the argument formats mean. *)
From Coq Require Import List ZArith Bool.
From Verif Require Import M_Str.
Import ListNotations.
Open Scope Z_scope.

Definition spaces (s : str) : Prop := Forall (fun c => is_space c = true) s.
Definition digit (c : Z) : Prop := 48 <= c <= 57.
(** The number written by digits, most significant first. *)
Fixpoint number (s : str) : Z := match s with [] => 0 | c :: r => (c - 48) * 10 ^ Z.of_nat (length r) + number r end.
(** Groups of digits joined by single underscores. *)
Definition digit_groups (gs : list str) : Prop := gs <> [] /\ Forall (fun g => g <> [] /\ Forall digit g) gs.
(** [t] is the integer [n] written in base 10, with an optional sign and surrounding spaces. *)
Inductive int_text : str -> Z -> Prop :=
  | it_plain p gs q : spaces p -> spaces q -> digit_groups gs -> int_text (p ++ join 95 gs ++ q) (number (concat gs))
  | it_plus p gs q : spaces p -> spaces q -> digit_groups gs -> int_text (p ++ 43 :: join 95 gs ++ q) (number (concat gs))
  | it_minus p gs q : spaces p -> spaces q -> digit_groups gs -> int_text (p ++ 45 :: join 95 gs ++ q) (- number (concat gs)).
(** [l] is the list of the integers from [a] to [b], in order. *)
Definition interval (a b : Z) (l : list Z) : Prop :=
  Z.of_nat (length l) = Z.max 0 (b - a + 1) /\ forall i, (i < length l)%nat -> nth i l 0 = a + Z.of_nat i.
(** One integer, or first~last. *)
Inductive ints_text : str -> list Z -> Prop :=
  | st_one t n : int_text t n -> ints_text t [n]
  | st_range t u a b l : int_text t a -> int_text u b -> interval a b l -> ints_text (t ++ 126 :: u) l.
(** One item of a comma-separated list; blank items stand for nothing. *)
Inductive int_field : str -> list Z -> Prop :=
  | if_blank t : spaces t -> int_field t []
  | if_ints t l : ints_text t l -> int_field t l.
(** ant1-ant2: all pairs, the second antenna running fastest. *)
Inductive baseline_field : str -> list (Z * Z) -> Prop :=
  | bf_blank t : spaces t -> baseline_field t []
  | bf_pairs t u l m : ~ In 45 t -> ints_text t l -> ints_text u m -> baseline_field (t ++ 45 :: u) (list_prod l m).
(** The comma-separated fields of a string. *)
Inductive fields : str -> list str -> Prop :=
  | f_last s : ~ In 44 s -> fields s [s]
  | f_more s r fs : ~ In 44 s -> fields r fs -> fields (s ++ 44 :: r) (s :: fs).

(** ** Host names *)
(** [s] is [n] in base 10 without leading zeros. *)
Definition canonical (n : Z) (s : str) : Prop := s <> [] /\ Forall digit s /\ number s = n /\ (hd 0 s <> 48 \/ s = [48]).
Definition byte_digits (s : str) : Prop := Forall digit s /\ (1 <= length s <= 3)%nat.
(** One to three digits, or two such numbers joined by '~'. *)
Inductive byte_span : str -> list Z -> Prop :=
  | bs_one t : byte_digits t -> byte_span t [number t]
  | bs_range t u l : byte_digits t -> byte_digits u -> interval (number t) (number u) l -> byte_span (t ++ 126 :: u) l.
Definition address (q : Z * Z * Z * Z) (s : str) : Prop :=
  match q with (a, b, c, d) => exists sa sb sc sd, canonical a sa /\ canonical b sb /\ canonical c sc /\ canonical d sd /\
    s = sa ++ 46 :: sb ++ 46 :: sc ++ 46 :: sd end.
(** All addresses, the last byte running fastest. *)
Inductive ipv4_text : str -> list str -> Prop :=
  | ipv4_intro t1 t2 t3 t4 l1 l2 l3 l4 hs : byte_span t1 l1 -> byte_span t2 l2 -> byte_span t3 l3 -> byte_span t4 l4 ->
      Forall2 address (list_prod (list_prod (list_prod l1 l2) l3) l4) hs ->
      ipv4_text (t1 ++ 46 :: t2 ++ 46 :: t3 ++ 46 :: t4) hs.
Definition letter (c : Z) : Prop := 65 <= c <= 90 \/ 97 <= c <= 122.
Definition host_char (c : Z) : Prop := letter c \/ digit c \/ c = 45.
(** A name without digits followed by first~last. *)
Inductive host_range_text : str -> list str -> Prop :=
  | host_range_intro base a b l hs : Forall (fun c => letter c \/ c = 45) base -> a <> [] -> b <> [] -> Forall digit a -> Forall digit b ->
      interval (number a) (number b) l -> Forall2 (fun i h => exists t, canonical i t /\ h = base ++ t) l hs ->
      host_range_text (base ++ a ++ 126 :: b) hs.
Definition no_spaces_at_ends (s : str) : Prop := (forall c r, s = c :: r -> is_space c = false) /\ (forall c r, s = r ++ [c] -> is_space c = false).
Inductive host_field : str -> list str -> Prop :=
  | hf_blank t : spaces t -> host_field t []
  | hf_host p t q l : spaces p -> spaces q -> t <> [] -> no_spaces_at_ends t ->
      ipv4_text t l \/ host_range_text t l \/ (Forall host_char t /\ l = [t]) -> host_field (p ++ t ++ q) l.
