(** Lemmas for C103: the bytes of a structure. *)
From Coq Require Import String.
From Coq Require Import List ZArith Bool Lia.
From Verif Require Import M_CStruct S_CStruct P_Str P_CStruct M_Ndp S_Ndp P_Ndp.
Import ListNotations.
Open Scope Z_scope.

Lemma width_base : forall ci t, width (base_of ci t) = bytes_of t.
Proof. intros ci t. destruct t; cbn; auto. destruct ci; reflexivity. Qed.
Lemma bytes_pos : forall t, 1 <= Z.of_nat (bytes_of t) <= 8.
Proof. destruct t; cbn; lia. Qed.
Lemma encode_len : forall big t v, zlen (encode big t v) = Z.of_nat (bytes_of t).
Proof. intros. unfold encode. destruct big; [apply be_zlen|apply le_zlen]. Qed.
Lemma pow_256 : forall n, 256 ^ Z.of_nat n = 2 ^ (8 * Z.of_nat n).
Proof. intro n. rewrite Z.pow_mul_r by lia. reflexivity. Qed.

Lemma decode_encode : forall big ci t v, in_range ci t v -> decode big (base_of ci t) (encode big t v) = v.
Proof.
  intros big ci t v R. unfold in_range in R. unfold decode, encode.
  set (n := 8 * Z.of_nat (bytes_of t)) in *.
  assert (Hn : 8 <= n) by (pose proof (bytes_pos t); subst n; lia).
  assert (HP : 2 ^ n = 2 * 2 ^ (n - 1)) by (rewrite <- Z.pow_succ_r by lia; f_equal; lia).
  assert (PP : 0 < 2 ^ (n - 1)) by (apply Z.pow_pos_nonneg; lia).
  assert (V : (if big then be_val (if big then be (bytes_of t) (v mod 2 ^ n) else le (bytes_of t) (v mod 2 ^ n))
               else le_val (if big then be (bytes_of t) (v mod 2 ^ n) else le (bytes_of t) (v mod 2 ^ n))) = v mod 2 ^ n).
  { destruct big; [rewrite be_val_be|rewrite le_val_le]; rewrite pow_256; fold n; apply Z.mod_mod; lia. }
  rewrite V.
  assert (SG : forall w, base_of ci t = CInt w true -> signed ci t = true /\ 8 * Z.of_nat w = n).
  { intros w E. subst n. pose proof (width_base ci t) as W. rewrite E in W. cbn in W. rewrite W. destruct t; cbn in E |- *; try discriminate; auto; destruct ci; try discriminate; auto. }
  assert (UG : (forall w, base_of ci t <> CInt w true) -> signed ci t = false).
  { intro E. destruct t; cbn in E |- *; auto; try (exfalso; now apply (E _ eq_refl)); destruct ci; auto; exfalso; now apply (E _ eq_refl). }
  destruct (base_of ci t) as [w s|w|] eqn:E.
  - destruct s.
    + destruct (SG w eq_refl) as [S1 S2]. rewrite S1 in R. rewrite S2. destruct (Z_lt_le_dec v 0) as [N|N].
      * replace (v mod 2 ^ n) with (v + 2 ^ n) by (apply Z.mod_unique with (-1); lia).
        destruct (v + 2 ^ n <? 2 ^ (n - 1)) eqn:C; [apply Z.ltb_lt in C; lia|lia].
      * rewrite Z.mod_small by lia. destruct (v <? 2 ^ (n - 1)) eqn:C; [reflexivity|apply Z.ltb_ge in C; lia].
    + rewrite UG in R by (intros ? ?; discriminate). now apply Z.mod_small.
  - rewrite UG in R by (intros ? ?; discriminate). now apply Z.mod_small.
  - rewrite UG in R by (intros ? ?; discriminate). now apply Z.mod_small.
Qed.

Lemma align_up_pad : forall w pos p, 0 < w -> 0 <= p < w -> (w | pos + p) -> align_up w pos = pos + p.
Proof.
  intros w pos p Hw Hp D. unfold align_up. apply Z.mod_divide in D; [|lia].
  destruct (pos mod w =? 0) eqn:E.
  - apply Z.eqb_eq in E. rewrite Z.add_mod, E, Z.add_0_l, Z.mod_mod, Z.mod_small in D by lia. lia.
  - apply Z.eqb_neq in E. pose proof (Z.mod_pos_bound pos w Hw).
    rewrite Z.add_mod in D by lia. rewrite (Z.mod_small p w) in D by lia.
    assert (K : (pos mod w + p) mod w = 0) by auto.
    destruct (Z_lt_le_dec (pos mod w + p) w) as [L|L]; [rewrite Z.mod_small in K; lia|].
    assert ((pos mod w + p) mod w = pos mod w + p - w) by (symmetry; apply Z.mod_unique with 1; lia). lia.
Qed.

Section EL.
  Variables (big ci : bool) (t : ctype).
  Let w := Z.of_nat (bytes_of t).
  Lemma concat_len : forall vs, zlen (concat (map (encode big t) vs)) = w * zlen vs.
  Proof. induction vs as [|v vs IH]; [unfold zlen; cbn; lia|]. cbn [map concat]. rewrite zlen_app, encode_len, IH, zlen_cons. subst w. lia. Qed.
  Lemma elements_gen : forall vs base pre post k, Forall (in_range ci t) vs -> zlen pre = base + w * k -> 0 <= base -> 0 <= k ->
    map (fun j => decode big (base_of ci t) (ztake w (zdrop (base + w * j) (pre ++ concat (map (encode big t) vs) ++ post)))) (zseq k (length vs)) = vs.
  Proof.
    induction vs as [|v vs IH]; intros base pre post k R HP B0 K0; [reflexivity|]. inversion R as [|? ? R1 R2]; subst.
    cbn [length zseq map]. f_equal.
    - rewrite <- HP. rewrite zdrop_app_exact. cbn [concat]. rewrite <- app_assoc.
      rewrite ztake_app_le by (rewrite encode_len; fold w; lia).
      rewrite ztake_all by (rewrite encode_len; fold w; lia). now apply decode_encode.
    - cbn [concat]. rewrite <- app_assoc. rewrite (app_assoc pre). apply IH; auto; [|lia].
      rewrite zlen_app, encode_len, HP. fold w. lia.
  Qed.
End EL.

Lemma count_eq : forall ci d, count (field_of ci d) = d_count d.
Proof. intros. unfold count, d_count. cbn. rewrite fold_mul_acc. lia. Qed.
Lemma wz_eq : forall ci d, wz (field_of ci d) = d_bytes d.
Proof. intros. unfold wz, d_bytes. cbn. now rewrite width_base. Qed.
Lemma d_bytes_pos : forall d, 1 <= d_bytes d.
Proof. intro d. unfold d_bytes. pose proof (bytes_pos (d_type d)). lia. Qed.

Section BODY.
  Variables (big ci : bool).
  Let fields (l : list (decl * list Z)) := map (fun p => field_of ci (fst p)) l.
  Lemma body_end : forall pos l bs, body big ci pos l bs -> end_of pos (fields l) = pos + zlen bs.
  Proof.
    intros pos l bs H. induction H as [pos|pos d vs l pad rest PO P1 P2 LV RV BR IH]; [unfold zlen; cbn; lia|].
    cbn [fields map end_of fst]. rewrite wz_eq, count_eq, <- LV.
    rewrite (align_up_pad (d_bytes d) pos (zlen pad)) by (auto; pose proof (d_bytes_pos d); pose proof (zlen_nonneg pad); lia).
    fold (fields l). rewrite IH, !zlen_app, concat_len. unfold d_bytes. lia.
  Qed.
  Lemma body_attr : forall pos l bs, body big ci pos l bs -> NoDup (map (fun p => d_name (fst p)) l) -> 0 <= pos ->
    forall pre post d vs, zlen pre = pos -> In (d, vs) l ->
    attr_at big (fields l) (offsets pos (fields l)) (pre ++ bs ++ post) (d_name d) = Some vs.
  Proof.
    intros pos l bs H. induction H as [pos|pos d vs l pad rest PO P1 P2 LV RV BR IH]; intros ND P0 pre post d' vs' HP IN; [contradiction|].
    pose proof (d_bytes_pos d) as DB. pose proof (zlen_nonneg pad) as PN. pose proof (zlen_nonneg vs) as VN.
    inversion ND as [|? ? ND1 ND2]; subst.
    cbn [fields map offsets fst attr_at]. rewrite wz_eq, count_eq, <- LV.
    rewrite (align_up_pad (d_bytes d) (zlen pre) (zlen pad)) by (auto; lia). cbn zeta. fold (fields l).
    destruct IN as [E|IN].
    - inversion E; subst. cbn [field_of fname]. rewrite str_eqb_refl. f_equal.
      unfold elements. rewrite wz_eq, count_eq, <- LV. cbn [field_of fbase].
      replace (Z.to_nat (zlen vs')) with (length vs') by (unfold zlen; lia).
      replace (pre ++ (pad ++ concat (map (encode big (d_type d')) vs') ++ rest) ++ post)
        with ((pre ++ pad) ++ concat (map (encode big (d_type d')) vs') ++ (rest ++ post)) by (rewrite <- !app_assoc; reflexivity).
      unfold d_bytes. apply elements_gen; auto; [rewrite zlen_app; lia|lia|lia].
    - cbn [field_of fname]. destruct (str_eqb_spec (d_name d) (d_name d')) as [E|NE].
      { exfalso. apply ND1. rewrite E. apply in_map_iff. exists (d', vs'). auto. }
      replace (pre ++ (pad ++ concat (map (encode big (d_type d)) vs) ++ rest) ++ post)
        with ((pre ++ pad ++ concat (map (encode big (d_type d)) vs)) ++ rest ++ post) by (rewrite <- !app_assoc; reflexivity).
      apply IH; auto; [nia|]. rewrite !zlen_app, concat_len. unfold d_bytes. lia.
  Qed.
  Lemma alignment_largest : forall l, alignment (fields l) = largest (map fst l).
  Proof.
    intro l. unfold alignment, largest.
    assert (G : forall l a, 1 <= a -> fold_left (fun a f => Z.max a (wz f)) (fields l) a = Z.max a (fold_right (fun d m => Z.max (d_bytes d) m) 1 (map fst l))).
    { clear l. induction l as [|p l IH]; intros a Ha; [cbn; lia|]. cbn [fields map fold_left fold_right fst]. fold (fields l). rewrite IH by lia. rewrite wz_eq. lia. }
    rewrite G by lia. induction l as [|p l IH]; cbn; lia.
  Qed.
  Lemma largest_pos : forall ds, 1 <= largest ds.
  Proof. induction ds as [|d ds IH]; cbn; [lia|]. unfold largest in IH. lia. Qed.
  Lemma image_size : forall l bs, image big ci l bs -> sizeof (fields l) = zlen bs.
  Proof.
    intros l bs (b & pad & -> & B & PO & P1 & P2). unfold sizeof. rewrite (body_end _ _ _ B), alignment_largest, Z.add_0_l.
    rewrite zlen_app in *. apply align_up_pad; auto; pose proof (largest_pos (map fst l)); pose proof (zlen_nonneg pad); lia.
  Qed.
  Lemma image_attr : forall l bs d vs, image big ci l bs -> NoDup (map (fun p => d_name (fst p)) l) -> In (d, vs) l ->
    attr big (fields l) bs (d_name d) = vs.
  Proof.
    intros l bs d vs (b & pad & -> & B & PO & P1 & P2) ND IN. unfold attr.
    pose proof (body_attr _ _ _ B ND ltac:(lia) [] pad d vs eq_refl IN) as K. cbn [app] in K. now rewrite K.
  Qed.
End BODY.

Lemma readinto_full : forall mem bs rest, zlen mem = zlen bs -> readinto mem (bs ++ rest) = (bs, rest).
Proof.
  intros mem bs rest E. unfold readinto. rewrite E. rewrite ztake_app_exact, zdrop_app_exact.
  rewrite (zdrop_all (zlen bs)) by lia. now rewrite app_nil_r.
Qed.
Lemma readinto_short : forall mem rest, zlen rest <= zlen mem -> readinto mem rest = (rest ++ zdrop (zlen rest) mem, []).
Proof. intros mem rest L. unfold readinto. rewrite ztake_all by lia. rewrite (zdrop_all (zlen mem)) by lia. reflexivity. Qed.
Lemma sizeof_nonneg : forall fs, Forall (fun f => 1 <= wz f /\ 0 <= count f) fs -> 0 <= sizeof fs.
Proof.
  intros fs H. unfold sizeof.
  assert (AU : forall w p, 0 < w -> 0 <= p -> 0 <= align_up w p).
  { intros w p Hw Hp. unfold align_up. destruct (p mod w =? 0); [lia|]. pose proof (Z.mod_pos_bound p w Hw). lia. }
  assert (E : forall p, 0 <= p -> 0 <= end_of p fs).
  { induction H as [|f fs [H1 H2] _ IH]; intros p Hp; cbn; [lia|]. apply IH. pose proof (AU (wz f) p ltac:(lia) Hp). nia. }
  assert (A : 1 <= alignment fs).
  { unfold alignment. assert (G : forall l a, 1 <= a -> 1 <= fold_left (fun a f => Z.max a (wz f)) l a) by (induction l as [|x l IH]; intros; cbn; [lia|apply IH; lia]). apply G. lia. }
  apply AU; [lia|]. apply E. lia.
Qed.
Lemma fresh_len : forall fs, 0 <= sizeof fs -> zlen (fresh fs) = sizeof fs.
Proof. intros fs H. unfold fresh, zlen. rewrite repeat_length. lia. Qed.
Lemma lookup_app : forall a b k, lookup (a ++ b) k = match lookup a k with Some v => Some v | None => lookup b k end.
Proof.
  intros a b k. unfold lookup. induction a as [|[x v] a IH]; [reflexivity|]. cbn [app find fst].
  destruct (str_eqb x k); [reflexivity|exact IH].
Qed.
Lemma line_says_ext : forall f g line o, (forall k, f k = g k) -> line_says f line o -> line_says g line o.
Proof.
  intros f g line o E H. inversion H as [s B E1 E2|ind s B NN E1 E2|d ind sp gap es tr B SP G NEG NEN NM LE DV TR E1 E2]; subst; clear H.
  - now constructor.
  - now constructor.
  - constructor; auto. clear - DV E. induction DV as [|e v es vs (A & B & ws & C & D) _ IH]; constructor; auto.
    split; [auto|]. split; [auto|]. exists ws. split; [|auto]. clear - C E.
    induction C as [|p w e ws H _ IH]; constructor; auto. clear - H E.
    induction H as [|a v p w H _ IH]; constructor; auto. destruct a; cbn in *; [auto|]. now rewrite <- E.
Qed.
Lemma dims_of_field : forall ci l d, NoDup (map d_name l) -> In d l -> dims_of (map (field_of ci) l) (d_name d) = d_dims d.
Proof.
  intros ci l d ND IN. unfold dims_of. induction l as [|x l IH]; [contradiction|]. inversion ND as [|? ? N1 N2]; subst.
  cbn [map find field_of fname]. destruct (str_eqb_spec (d_name x) (d_name d)) as [E|NE].
  - destruct IN as [->|IN]; [reflexivity|]. exfalso. apply N1. rewrite E. now apply in_map.
  - destruct IN as [->|IN]; [now contradiction NE|]. auto.
Qed.
Lemma body_counts : forall big ci pos l bs, body big ci pos l bs -> Forall (fun p => zlen (snd p) = d_count (fst p)) l.
Proof. intros big ci pos l bs H. induction H; constructor; auto. Qed.

(** ** Every structure has an image, with zeros as filling. *)
Lemma align_up_fill : forall w p, 0 < w -> 0 <= align_up w p - p < w /\ (w | align_up w p).
Proof.
  intros w p Hw. unfold align_up. pose proof (Z.mod_pos_bound p w Hw) as B. destruct (p mod w =? 0) eqn:E.
  - apply Z.eqb_eq in E. split; [lia|]. apply Z.mod_divide; lia.
  - apply Z.eqb_neq in E. split; [lia|]. exists (p / w + 1). pose proof (Z.div_mod p w ltac:(lia)). lia.
Qed.
Definition fill (w p : Z) : list Z := repeat 0 (Z.to_nat (align_up w p - p)).
Lemma fill_len : forall w p, 0 < w -> zlen (fill w p) = align_up w p - p.
Proof. intros w p Hw. unfold fill, zlen. rewrite repeat_length. pose proof (align_up_fill w p Hw). lia. Qed.
Lemma fill_ok : forall w p, bytes_ok (fill w p).
Proof. intros. unfold fill. apply Forall_forall. intros x H. apply repeat_spec in H. subst. unfold is_byte. lia. Qed.
Section MK.
  Variables (big ci : bool).
  Fixpoint mk_body (pos : Z) (l : list (decl * list Z)) : list Z :=
    match l with
    | [] => []
    | (d, vs) :: r => fill (d_bytes d) pos ++ concat (map (encode big (d_type d)) vs) ++ mk_body (align_up (d_bytes d) pos + d_bytes d * zlen vs) r
    end.
  Definition mk_image (l : list (decl * list Z)) : list Z :=
    let b := mk_body 0 l in b ++ fill (largest (map fst l)) (zlen b).
  Definition fits (p : decl * list Z) : Prop := zlen (snd p) = d_count (fst p) /\ Forall (in_range ci (d_type (fst p))) (snd p).
  Lemma mk_body_ok : forall l pos, Forall fits l -> body big ci pos l (mk_body pos l).
  Proof.
    induction l as [|[d vs] l IH]; intros pos H; [constructor|]. inversion H as [|? ? [H1 H2] H3]; subst. cbn [fst snd] in *.
    pose proof (d_bytes_pos d) as DB. pose proof (align_up_fill (d_bytes d) pos ltac:(lia)) as [A1 A2].
    cbn [mk_body]. constructor; auto.
    - apply fill_ok.
    - rewrite fill_len by lia. lia.
    - rewrite fill_len by lia. now replace (pos + (align_up (d_bytes d) pos - pos)) with (align_up (d_bytes d) pos) by lia.
    - rewrite fill_len by lia. replace (pos + (align_up (d_bytes d) pos - pos)) with (align_up (d_bytes d) pos) by lia. apply IH; auto.
  Qed.
  Lemma mk_image_ok : forall l, Forall fits l -> image big ci l (mk_image l).
  Proof.
    intros l H. unfold mk_image. cbn zeta. eexists _, _. split; [reflexivity|]. split; [now apply mk_body_ok|]. split; [apply fill_ok|].
    pose proof (largest_pos (map fst l)) as LP. pose proof (align_up_fill (largest (map fst l)) (zlen (mk_body 0 l)) ltac:(lia)) as [A1 A2].
    rewrite zlen_app, fill_len by lia. split; [lia|]. now replace (zlen (mk_body 0 l) + (align_up (largest (map fst l)) (zlen (mk_body 0 l)) - zlen (mk_body 0 l))) with (align_up (largest (map fst l)) (zlen (mk_body 0 l))) by lia.
  Qed.
End MK.

Lemma encode_ok : forall big t v, bytes_ok (encode big t v).
Proof. intros. unfold encode. destruct big; [apply be_ok|apply le_ok]. Qed.
Lemma body_bytes : forall big ci pos l bs, body big ci pos l bs -> bytes_ok bs.
Proof.
  intros big ci pos l bs H. induction H as [pos|pos d vs l pad rest PO P1 P2 LV RV BR IH]; [constructor|].
  apply bytes_ok_app. split; [auto|]. apply bytes_ok_app. split; [|auto]. clear - vs.
  induction vs as [|v vs IH]; [constructor|]. cbn [map concat]. apply bytes_ok_app. split; [apply encode_ok|auto].
Qed.
Lemma image_bytes : forall big ci l bs, image big ci l bs -> bytes_ok bs.
Proof. intros big ci l bs (b & pad & -> & B & PO & _). apply bytes_ok_app. split; [eapply body_bytes; eauto|auto]. Qed.
