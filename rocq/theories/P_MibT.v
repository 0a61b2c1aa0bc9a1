From Coq Require Import List ZArith Bool Lia.
From Verif Require Import M_Py M_Mib S_Mib P_Mib.
Import ListNotations.
Open Scope Z_scope.

(** C145: an unsigned integer is read as it is stored when none of its bytes is zero, or it is zero. *)
Lemma C145_values_partial_proof : forall utf8 ty k v fill, In (ty, k) integer_types -> 0 <= v < 256 ^ Z.of_nat k -> (v = 0 \/ ~ has_zero_byte k v) ->
  parse_value utf8 (c_string (field k v fill)) ty = Ok (Int v).
Proof.
  intros utf8 ty k v fill T R H. assert (E : or_zero (unpack k true false (c_string (field k v fill))) = v).
  { rewrite unpack_field by exact R. destruct (in_dec Z.eq_dec 0 (stored k v)) as [I|I]; [|reflexivity]. destruct H as [->|H]; [reflexivity|contradiction]. }
  cbn [integer_types In] in T. destruct T as [T|[T|[T|[T|[]]]]]; injection T as <- <-; rewrite <- E at 2; reflexivity.
Qed.
(** C145: a text without zero bytes is read as it is stored. *)
Lemma C145_texts_partial_proof : forall utf8 t fill n, ~ In 0 t -> utf8 t = Ok t -> parse_value utf8 (c_string (t ++ repeat 0 fill)) (97 :: n) = Ok (Text t).
Proof.
  intros utf8 t fill n N U. rewrite c_string_fill by exact N. unfold parse_value. rewrite !text_eqb_neq by discriminate. cbn [orb]. replace (prefix [97] (97 :: n)) with true by (symmetry; apply text_eqb_iff; reflexivity). rewrite U. reflexivity.
Qed.
(** C145: the same for signed integers, in two's complement. *)
Lemma C145_signed_partial_proof : forall utf8 v fill, - 2 ^ 31 <= v < 2 ^ 31 -> (v = 0 \/ ~ has_zero_byte 4 v) ->
  parse_value utf8 (c_string (field 4 v fill)) [105; 52; 115] = Ok (Int v).
Proof.
  intros utf8 v fill R H. change (parse_value utf8 (c_string (field 4 v fill)) [105; 52; 115]) with (@Ok value (Int (or_zero (unpack 4 true true (c_string (field 4 v fill)))))). apply (f_equal Ok), (f_equal Int).
  destruct H as [->|H]; [cbn; destruct fill; reflexivity|]. unfold unpack, field. rewrite c_string_fill by exact H. rewrite stored_length, Nat.eqb_refl, <- stored_mod. change (256 ^ Z.of_nat 4) with (2 ^ 32). change (8 * Z.of_nat 4) with 32. cbv zeta.
  rewrite stored_value by (change (256 ^ Z.of_nat 4) with (2 ^ 32); apply Z.mod_pos_bound; lia). change (32 - 1) with 31. cbn [andb]. change (2 ^ 32) with 4294967296. change (2 ^ 31) with 2147483648 in *. cbn [or_zero].
  assert (0 <= v \/ v < 0) as [P|P] by lia.
  - rewrite Z.mod_small by lia. destruct (Z.leb_spec 2147483648 v); lia.
  - rewrite <- (Z.mod_add v 1 4294967296), Z.mod_small by lia. destruct (Z.leb_spec 2147483648 (v + 1 * 4294967296)); cbn [or_zero]; lia.
Qed.
(** C145: a float, by its bits, is read as stored in either order of bytes when none of its bytes is zero, or all are, and as 0
    otherwise. *)
Lemma C145_floats_refuted_proof : forall utf8 ty k lowest_first bits fill, In (ty, (k, lowest_first)) float_types -> 0 <= bits < 256 ^ Z.of_nat k ->
  (bits = 0 \/ ~ has_zero_byte k bits -> parse_value utf8 (c_string (float_field k lowest_first bits fill)) ty = Ok (Float bits)) /\
  (has_zero_byte k bits -> parse_value utf8 (c_string (float_field k lowest_first bits fill)) ty = Ok (Float 0)).
Proof.
  intros utf8 ty k lf bits fill T R. assert (G : parse_value utf8 (c_string (float_field k lf bits fill)) ty = Ok (Float (or_zero (unpack k lf false (c_string (float_field k lf bits fill)))))).
  { cbn [float_types In] in T. destruct T as [T|[T|[T|[T|[]]]]]; injection T as <- <- <-; reflexivity. }
  rewrite G, unpack_float by exact R. unfold has_zero_byte. destruct (in_dec Z.eq_dec 0 (stored k bits)) as [I|I]; split; intro H; try reflexivity; try contradiction. destruct H as [->|H]; [reflexivity|contradiction].
Qed.
(** C145: the value is cut off at its first zero byte, so an integer with a zero byte, as any of several bytes that would fit in fewer,
    is read as 0; single bytes are read right. *)
Lemma C145_zero_byte_refuted_proof : forall utf8 ty k v fill, In (ty, k) integer_types -> 0 <= v < 256 ^ Z.of_nat k ->
  (has_zero_byte k v -> parse_value utf8 (c_string (field k v fill)) ty = Ok (Int 0)) /\
  (v < 256 ^ (Z.of_nat k - 1) -> has_zero_byte k v) /\ (k = 1%nat -> parse_value utf8 (c_string (field k v fill)) ty = Ok (Int v)).
Proof.
  intros utf8 ty k v fill T R. assert (G : parse_value utf8 (c_string (field k v fill)) ty = Ok (Int (or_zero (unpack k true false (c_string (field k v fill)))))).
  { cbn [integer_types In] in T. destruct T as [T|[T|[T|[T|[]]]]]; injection T as <- <-; reflexivity. }
  assert (K : (0 < k)%nat) by (cbn [integer_types In] in T; destruct T as [T|[T|[T|[T|[]]]]]; injection T as _ <-; lia).
  rewrite G, unpack_field by exact R. split; [|split].
  - intro H. unfold has_zero_byte in H. destruct (in_dec Z.eq_dec 0 (stored k v)); [reflexivity|contradiction].
  - intro H. destruct k as [|k]; [lia|]. apply stored_low. split; [lia|]. replace (Z.of_nat k) with (Z.of_nat (S k) - 1) by lia. exact H.
  - intros ->. destruct (in_dec Z.eq_dec 0 (stored 1 v)) as [I|I]; [|reflexivity]. cbn [stored In] in I. destruct I as [I|[]]. change (256 ^ Z.of_nat 1) with 256 in R. rewrite Z.mod_small in I by lia. rewrite I. reflexivity.
Qed.
(** 257 as two bytes is read right, 256 is not, nor 5 as four bytes, nor the float 1. *)
Lemma C145_example_proof : let u l := Ok l in
  parse_value u (c_string (field 2 257 3)) [105; 50; 117] = Ok (Int 257) /\ parse_value u (c_string (field 2 256 3)) [105; 50; 117] = Ok (Int 0) /\
  parse_value u (c_string (field 4 5 3)) [105; 52; 117] = Ok (Int 0) /\ parse_value u (c_string (field 4 1065353216 3)) [102; 52] = Ok (Float 0) /\
  parse_value u (c_string (field 4 (-1) 3)) [105; 52; 115] = Ok (Int (-1)) /\ parse_value u (c_string (float_field 4 false 1078530011 3)) [102; 52; 114] = Ok (Float 1078530011) /\ ~ has_zero_byte 2 257 /\ has_zero_byte 2 256.
Proof.
  repeat split; try reflexivity; [|left; reflexivity]. intros [H|[H|[]]]; vm_compute in H; discriminate.
Qed.

(** C146: a MIB loaded from a database holds for every index the last valid entry of the records, and nothing else: branches, indices
    that do not start with a digit, unknown types and texts that cannot be decoded are left out and no exception is raised. *)
Lemma C146_loaded_proof : forall utf8 rs m, (forall l e, utf8 l = Raise e -> e = UnicodeError) -> entries m = [] ->
  exists m', load utf8 m rs = Ok m' /\ NoDup (keys m' false) /\ (forall k, In k (keys m' false) -> starts_with_digit k) /\
    forall k e, lookup k (entries m') = Some e <-> exists before r after, rs = before ++ r :: after /\ from_entry utf8 r = Ok e /\ e_index e = k /\
      forall r' e', In r' after -> from_entry utf8 r' = Ok e' -> e_index e' <> k.
Proof.
  intros utf8 rs m Hu Em. destruct (load_spec utf8 Hu rs m) as (m' & L & _ & _ & C & D & G). rewrite Em in *. exists m'. split; [exact L|]. unfold keys. split; [apply D; constructor|]. split; [apply G; intros k []|].
  intros k e. rewrite C. cbn [lookup]. clear. induction rs as [|r rs IH] using rev_ind.
  - split; [discriminate|]. intros (b & r & a & E & _). destruct b; discriminate.
  - unfold last_entry. rewrite fold_left_app. cbn [fold_left]. fold (last_entry utf8 k rs None). destruct (from_entry utf8 r) as [x|x] eqn:F.
    + destruct (text_eqb (e_index x) k) eqn:K.
      * apply text_eqb_iff in K. split.
        -- intro E. injection E as <-. exists rs, r, []. repeat split; auto.
        -- intros (b & r' & a & E & F' & K' & N). destruct a as [|y a] using rev_ind.
           ++ apply app_inj_tail in E. destruct E as [_ <-]. congruence.
           ++ exfalso. rewrite app_comm_cons, app_assoc in E. apply app_inj_tail in E. destruct E as [_ <-]. apply (N r x); [apply in_or_app; right; left; reflexivity|exact F|exact K].
      * assert (K' : e_index x <> k) by (intro H; apply text_eqb_iff in H; congruence). rewrite IH. split.
        -- intros (b & r' & a & -> & F' & Ki & N). exists b, r', (a ++ [r]). rewrite <- app_assoc. repeat split; auto. intros r2 e2 I F2. apply in_app_iff in I. destruct I as [I|[<-|[]]]; [apply (N r2); assumption|]. congruence.
        -- intros (b & r' & a & E & F' & Ki & N). destruct a as [|y a _] using rev_ind.
           ++ apply app_inj_tail in E. destruct E as [_ <-]. congruence.
           ++ rewrite app_comm_cons, app_assoc in E. apply app_inj_tail in E. destruct E as [-> <-]. exists b, r', a. repeat split; auto. intros r2 e2 I. apply N. apply in_or_app. left. exact I.
    + rewrite IH. split.
      * intros (b & r' & a & -> & F' & Ki & N). exists b, r', (a ++ [r]). rewrite <- app_assoc. repeat split; auto. intros r2 e2 I F2. apply in_app_iff in I. destruct I as [I|[<-|[]]]; [apply (N r2); assumption|]. congruence.
      * intros (b & r' & a & E & F' & Ki & N). destruct a as [|y a _] using rev_ind.
        -- apply app_inj_tail in E. destruct E as [_ <-]. congruence.
        -- rewrite app_comm_cons, app_assoc in E. apply app_inj_tail in E. destruct E as [-> <-]. exists b, r', a. repeat split; auto. intros r2 e2 I. apply N. apply in_or_app. left. exact I.
Qed.
(** C146: with an initialization file whose indices and names are distinct and whose names do not start with a digit, every name gives
    the entry of its index, and the names of keys(name=True) give, one by one, the entries of the indices of keys(). *)
Lemma C146_names_partial_proof : forall utf8 pairs rs, (forall l e, utf8 l = Raise e -> e = UnicodeError) -> NoDup (map fst pairs) -> NoDup (map snd pairs) ->
  (forall n, In n (map snd pairs) -> ~ starts_with_digit n) ->
  exists m0 m, parse_init (mkMib [] [] []) (map (fun p => line (fst p) (snd p)) pairs) = Ok m0 /\ load utf8 m0 rs = Ok m /\
    (forall i n, In (i, n) pairs -> getitem m n = match lookup i (entries m) with Some e => Ok e | None => Raise KeyError end) /\
    Forall2 (fun i k => (In (i, k) pairs \/ (k = i /\ ~ In i (map fst pairs))) /\ exists e, lookup i (entries m) = Some e /\ getitem m i = Ok e /\ getitem m k = Ok e) (keys m false) (keys m true).
Proof.
  intros utf8 pairs rs Hu N1 N2 Nd. unfold parse_init. cbn [entries]. destruct (init_spec pairs (mkMib [] [] [])) as (m0 & I0 & E0 & P). destruct (P N1 N2) as (P1 & P2 & _). cbn [mapper lookup entries] in *.
  destruct (load_spec utf8 Hu rs m0) as (m & L & A & B & C & D & G). rewrite E0 in *. exists m0, m. split; [exact I0|]. split; [exact L|].
  assert (K : forall i n, In (i, n) pairs -> getitem m n = match lookup i (entries m) with Some e => Ok e | None => Raise KeyError end).
  { intros i n I. destruct (P1 (i, n) I) as [_ Q]. cbn [fst snd] in Q. unfold getitem. destruct (lookup n (entries m)) as [e|] eqn:F.
    - exfalso. apply (Nd n); [apply in_map_iff; exists (i, n); auto|]. apply G; [intros k []|]. clear -F. induction (entries m) as [|[a b] d IH]; [discriminate|]. cbn [lookup] in F. destruct (text_eqb a n) eqn:T; [apply text_eqb_iff in T; left; exact T|right; apply IH; exact F].
    - rewrite B, Q. reflexivity. }
  split; [exact K|]. unfold keys. rewrite <- (map_id (map fst (entries m))) at 1. 
  assert (H : forall l, (forall i, In i l -> In i (map fst (entries m))) -> Forall2 (fun i k => (In (i, k) pairs \/ (k = i /\ ~ In i (map fst pairs))) /\ exists e, lookup i (entries m) = Some e /\ getitem m i = Ok e /\ getitem m k = Ok e) (map (fun x => x) l) (map (fun k => match lookup k (mapper m) with Some n => n | None => k end) l)).
  { induction l as [|i l IH]; intro S; [constructor|]. cbn [map]. constructor; [|apply IH; intros j J; apply S; right; exact J]. destruct (lookup_in _ i (entries m) (S i (or_introl eq_refl))) as (e & F).
    assert (Gi : getitem m i = Ok e) by (unfold getitem; rewrite F; reflexivity). rewrite A. destruct (in_dec (list_eq_dec Z.eq_dec) i (map fst pairs)) as [J|J].
    - apply in_map_iff in J. destruct J as ([i' n] & Ei & J). cbn [fst] in Ei. subst i'. destruct (P1 (i, n) J) as [Q _]. cbn [fst snd] in Q. rewrite Q. split; [left; exact J|]. exists e. split; [exact F|]. split; [exact Gi|]. rewrite (K i n J), F. reflexivity.
    - rewrite (P2 i J). split; [right; auto|]. exists e. auto. }
  apply H. auto.
Qed.
(** C146: when two indices have one name, it stands for both in keys(name=True) but gives only the entry of the second. *)
Lemma C146_same_name_refuted_proof : forall i j n e f m, i <> j -> n <> i -> n <> j -> parse_init (mkMib [(i, e); (j, f)] [] []) [line i n; line j n] = Ok m ->
  keys m true = [n; n] /\ getitem m n = Ok f.
Proof.
  intros i j n e f m Nij Ni Nj H. unfold parse_init, line in H. cbn [init_lines entries] in H. rewrite !text_eqb_neq in H by discriminate. injection H as <-. unfold keys, getitem. cbn [entries mapper inv_mapper put lookup map fst].
  rewrite (proj2 (text_eqb_iff n n) eq_refl), !(text_eqb_neq i j), (text_eqb_neq i n), (text_eqb_neq j n) by congruence. cbn [lookup]. rewrite !(proj2 (text_eqb_iff _ _) eq_refl), !(text_eqb_neq i j) by congruence. split; reflexivity.
Qed.
(** Three records, one of them of a branch, and a file that names the first index. *)
Lemma C146_example_proof : let u l := if ascii l then Ok l else Raise UnicodeError in
  let rs := [mkRec 1 [49; 0] [65; 0] [97; 49; 0] [97; 0]; mkRec 0 [50; 0] [65; 0] [97; 49; 0] [97; 0]; mkRec 1 [51; 0] [66; 0] [97; 49; 0] [97; 0]; mkRec 1 [49; 0] [200; 0] [97; 49; 0] [97; 0]] in
  match parse_init (mkMib [] [] []) [branch [50] [88]; line [49] [78]] with
  | Ok m0 => match load u m0 rs with
             | Ok m => keys m false = [[49]; [51]] /\ keys m true = [[78]; [51]] /\ getitem m [78] = Ok (mkEntry [49] (Text [65]) [97; 49] [97]) /\ getitem m [88] = Raise KeyError
             | Raise _ => False end
  | Raise _ => False end.
Proof. repeat split; reflexivity. Qed.
