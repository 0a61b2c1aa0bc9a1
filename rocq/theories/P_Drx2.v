(** Streams, identifiers, simulated frames, quantisation. *)
From Coq Require Import List ZArith Lia Bool QArith Qround Lqa.
From Verif Require Import M_Drx M_SimDrx S_Drx P_Drx.
Import ListNotations.
Open Scope Z_scope.
Ltac Zify.zify_post_hook ::= Z.div_mod_to_equations.

(** ** Arbitrary streams *)
Lemma sync_iff : forall raw, bytes_ok raw -> 4 <= zlen raw ->
  valid_sync raw = true <-> ztake 4 raw = [222; 192; 222; 92].
Proof.
  intros raw H HL. unfold valid_sync.
  assert (HS : slice 0 4 raw = ztake 4 raw) by (unfold slice; rewrite zdrop_0 by lia; auto). rewrite HS.
  assert (HB : bytes_ok (ztake 4 raw)) by (apply bytes_ok_ztake; auto).
  assert (HZ : zlen (ztake 4 raw) = 4) by (rewrite zlen_ztake by lia; lia).
  rewrite Z.eqb_eq. split; intro E.
  - rewrite <- (le_le_val (ztake 4 raw) HB), E.
    replace (length (ztake 4 raw)) with 4%nat by (unfold zlen in HZ; lia). reflexivity.
  - rewrite E. reflexivity.
Qed.

Lemma read_gen_total : forall size fill f, 0 <= f_pos f -> 4 <= size -> bytes_ok (f_data f) ->
  let rest := zdrop (f_pos f) (f_data f) in
  let '(f', r) := read_frame_gen size fill f in
  f_data f' = f_data f /\
  ((zlen rest < size /\ r = AtEOF /\ f_pos f' = f_pos f + zlen rest) \/
   (size <= zlen rest /\ f_pos f' = f_pos f + size /\
    ((ztake 4 rest = [222; 192; 222; 92] /\ r = Got (parse size fill (ztake size rest))) \/
     (ztake 4 rest <> [222; 192; 222; 92] /\ r = BadSync (f_pos f))))).
Proof.
  intros size fill f Hp Hs HB rest. unfold read_frame_gen, f_read. fold rest.
  destruct (Z.ltb_spec size 0); [lia|]. pose proof (zlen_nonneg rest) as HR.
  assert (HZ : zlen (ztake size rest) = Z.min size (zlen rest)) by (apply zlen_ztake; lia).
  assert (HBr : bytes_ok rest) by (apply bytes_ok_zdrop; auto).
  destruct (Z.eqb_spec (zlen (ztake size rest)) size) as [E|E]; cbn [negb].
  - assert (HT : ztake 4 (ztake size rest) = ztake 4 rest).
    { rewrite ztake_ztake. rewrite Z.min_l by lia. auto. }
    pose proof (sync_iff (ztake size rest) ltac:(apply bytes_ok_ztake; auto) ltac:(lia)) as HS. rewrite HT in HS.
    destruct (valid_sync (ztake size rest)) eqn:EV; cbn [negb f_data f_pos]; split; auto; right.
    + split; [lia|]. split; [lia|]. left. split; auto. apply HS. auto.
    + split; [lia|]. split; [lia|]. right. split; [intro X; apply HS in X; discriminate|].
      unfold f_tell. cbn. f_equal. lia.
  - cbn [f_data f_pos]. split; auto. left. split; [lia|]. split; auto. lia.
Qed.

(** ** Streams of well-formed frames *)
Section Stream.
Context (size : Z) (reader : file -> file * rd dframe) (enc : recorded -> list Z) (dec : recorded -> dframe)
  (wf : recorded -> Prop)
  (Hread : forall a c r, wf r -> reader (mkFile (a ++ enc r ++ c) (zlen a)) = (mkFile (a ++ enc r ++ c) (zlen a + size), Got (dec r)))
  (Hlen : forall r, wf r -> zlen (enc r) = size).

Lemma read_n_stream : forall rs a c, Forall wf rs ->
  read_n reader (length rs) (mkFile (a ++ flat_map enc rs ++ c) (zlen a)) =
  (mkFile (a ++ flat_map enc rs ++ c) (zlen a + size * zlen rs), map dec rs, None).
Proof.
  induction rs as [|r rs IH]; intros a c HF.
  - cbn. f_equal. f_equal. f_equal. lia.
  - inversion HF as [|? ? Hr Hrs]; subst. cbn [length read_n flat_map]. rewrite <- app_assoc.
    rewrite Hread by auto.
    specialize (IH (a ++ enc r) c Hrs). rewrite zlen_app, (Hlen r Hr), <- app_assoc in IH. rewrite IH.
    rewrite zlen_cons. cbn [map]. f_equal. f_equal. f_equal. lia.
Qed.

Lemma read_n_first : forall n rs a c, Forall wf rs -> (n <= length rs)%nat ->
  read_n reader n (mkFile (a ++ flat_map enc rs ++ c) (zlen a)) =
  (mkFile (a ++ flat_map enc rs ++ c) (zlen a + size * Z.of_nat n), map dec (firstn n rs), None).
Proof.
  intros n rs a c HF Hn.
  rewrite <- (firstn_skipn n rs) in HF |- * at 1 2. apply Forall_app in HF. destruct HF as [HF _].
  rewrite flat_map_app, <- app_assoc.
  pose proof (read_n_stream (firstn n rs) a (flat_map enc (skipn n rs) ++ c) HF) as H.
  rewrite firstn_length, Nat.min_l in H by auto. rewrite H. unfold zlen at 2.
  rewrite firstn_length, Nat.min_l by auto. reflexivity.
Qed.

Lemma first_frames_stream : forall n rs a c, Forall wf rs -> (n <= length rs)%nat ->
  first_frames reader n (mkFile (a ++ flat_map enc rs ++ c) (zlen a)) =
  (mkFile (a ++ flat_map enc rs ++ c) (zlen a), Ok (map dec (firstn n rs))).
Proof.
  intros n rs a c HF Hn. unfold first_frames. rewrite read_n_first by auto.
  unfold f_seek, f_tell. cbn [f_pos Z.eqb]. pose proof (zlen_nonneg a).
  destruct (Z.ltb_spec (zlen a) 0); [lia|]. reflexivity.
Qed.
End Stream.

(** ** Distinct elements in order of first occurrence *)
Lemma add_new_In : forall x y l, In y (add_new x l) <-> y = x \/ In y l.
Proof.
  intros x y l. unfold add_new. destruct (existsb (Z.eqb x) l) eqn:E.
  - apply existsb_exists in E. destruct E as (z & Hz & E). apply Z.eqb_eq in E. subst z.
    split; [auto|]. intros [->|H]; auto.
  - rewrite in_app_iff. cbn. intuition.
Qed.
Lemma add_new_NoDup : forall x l, NoDup l -> NoDup (add_new x l).
Proof.
  intros x l H. unfold add_new. destruct (existsb (Z.eqb x) l) eqn:E; auto.
  assert (~ In x l).
  { intro HI. apply not_true_iff_false in E. apply E. apply existsb_exists. exists x. split; auto. apply Z.eqb_refl. }
  apply NoDup_rev in H. rewrite <- (rev_involutive (l ++ [x])). apply NoDup_rev. rewrite rev_app_distr. cbn.
  constructor; auto. rewrite <- in_rev. auto.
Qed.
Lemma fold_add_new : forall l acc, NoDup acc ->
  NoDup (fold_left (fun b x => add_new x b) l acc) /\
  (forall y, In y (fold_left (fun b x => add_new x b) l acc) <-> In y acc \/ In y l).
Proof.
  induction l as [|x l IH]; intros acc H; cbn [fold_left].
  - split; auto. intro y. cbn. tauto.
  - destruct (IH (add_new x acc) (add_new_NoDup x acc H)) as [H1 H2]. split; auto.
    intro y. rewrite H2, add_new_In. cbn. intuition.
Qed.

Lemma distinct_count : forall l d, NoDup d -> (forall y, In y d <-> In y l) ->
  zlen (fold_left (fun b x => add_new x b) l []) = zlen d.
Proof.
  intros l d Hd H. destruct (fold_add_new l [] (NoDup_nil _)) as [H1 H2].
  unfold zlen. f_equal. apply Nat.le_antisymm; apply NoDup_incl_length; auto; intros y Hy.
  - apply H. apply H2 in Hy. destruct Hy as [[]|]; auto.
  - apply H2. right. apply H. auto.
Qed.

(** ** Identifiers *)
Lemma id_tuple_roundtrip : forall e beam tune pol, 0 <= beam < 8 -> 0 <= tune < 8 -> 0 <= pol < 2 ->
  let id := beam + 8 * tune + 64 * (if e : bool then 1 else 0) + 128 * pol in
  drx_id_tuple id = (beam, tune, pol) /\ Z.land (Z.shiftr id 6) 1 = (if e then 1 else 0).
Proof.
  intros e beam tune pol Hb Ht Hp.
  set (chk := fun x => let '(b, t, p) := drx_id_tuple x in
     (b =? x mod 8) && (t =? x / 8 mod 8) && (p =? x / 128) && (Z.land (Z.shiftr x 6) 1 =? x / 64 mod 2)).
  cbv zeta. set (id := beam + 8 * tune + 64 * (if e : bool then 1 else 0) + 128 * pol).
  assert (Hid : 0 <= id < 256) by (unfold id; destruct e; lia).
  pose proof (zseq_sweep chk 0 256 eq_refl id Hid) as H. unfold chk in H.
  destruct (drx_id_tuple id) as [[b t] p].
  apply andb_prop in H. destruct H as [H H4]. apply andb_prop in H. destruct H as [H H3].
  apply andb_prop in H. destruct H as [H1 H2]. apply Z.eqb_eq in H1, H2, H3, H4.
  rewrite H1, H2, H3, H4. unfold id. destruct e; split; repeat f_equal; lia.
Qed.

Lemma make_id_eq : forall beam tune pol, make_drx_id beam tune pol = beam mod 8 + 8 * (tune mod 8) + 128 * (pol mod 2).
Proof.
  intros beam tune pol. unfold make_drx_id.
  assert (M7 : forall v, Z.land v 7 = v mod 8) by (intro v; apply (land_mask v 3); lia).
  assert (M1 : forall v, Z.land v 1 = v mod 2) by (intro v; apply (land_mask v 1); lia).
  rewrite !M7, M1. clear M7 M1.
  assert (Hb : 0 <= beam mod 8 < 8) by (apply Z.mod_pos_bound; lia).
  assert (Ht : 0 <= tune mod 8 < 8) by (apply Z.mod_pos_bound; lia).
  assert (Hp : 0 <= pol mod 2 < 2) by (apply Z.mod_pos_bound; lia).
  generalize dependent (beam mod 8). generalize dependent (tune mod 8). generalize dependent (pol mod 2).
  clear. intros p Hp t Ht b Hb.
  pose proof (zseq_sweep (fun p => forallb (fun t => forallb (fun b =>
    Z.lor (Z.lor b (Z.shiftl t 3)) (Z.shiftl p 7) =? b + 8 * t + 128 * p) (zseq 0 8)) (zseq 0 8)) 0 2 eq_refl p Hp) as H.
  cbv beta in H. rewrite forallb_forall in H. specialize (H t (zseq_In 8 0 t Ht)).
  rewrite forallb_forall in H. specialize (H b (zseq_In 8 0 b Hb)). apply Z.eqb_eq in H. exact H.
Qed.

(** ** The writer produces the format *)
Lemma b8_div : forall v k, 0 <= k -> b8 v k = (v / 2 ^ k) mod 256.
Proof. intros v k H. unfold b8. rewrite land_255, Z.shiftr_div_pow2 by auto. auto. Qed.

Lemma be_2 : forall v, be 2 v = [b8 v 8; b8 v 0].
Proof. intros. unfold be. cbn [le rev app]. rewrite !b8_div by lia. change (2 ^ 0) with 1. rewrite Z.div_1_r. reflexivity. Qed.
Lemma be_3 : forall v, be 3 v = [b8 v 16; b8 v 8; b8 v 0].
Proof.
  intros. unfold be. cbn [le rev app]. rewrite !b8_div by lia. change (2 ^ 0) with 1. rewrite Z.div_1_r.
  rewrite !Z.div_div by lia. reflexivity.
Qed.
Lemma be_4 : forall v, be 4 v = [b8 v 24; b8 v 16; b8 v 8; b8 v 0].
Proof.
  intros. unfold be. cbn [le rev app]. rewrite !b8_div by lia. change (2 ^ 0) with 1. rewrite Z.div_1_r.
  rewrite !Z.div_div by lia. reflexivity.
Qed.
Lemma be_8 : forall v, be 8 v = [b8 v 56; b8 v 48; b8 v 40; b8 v 32; b8 v 24; b8 v 16; b8 v 8; b8 v 0].
Proof.
  intros. unfold be. cbn [le rev app]. rewrite !b8_div by lia. change (2 ^ 0) with 1. rewrite Z.div_1_r.
  rewrite !Z.div_div by lia. reflexivity.
Qed.
Lemma b8_shift : forall v k, 0 <= k -> b8 v (32 + k) = b8 (v / 2 ^ 32) k.
Proof. intros v k H. rewrite !b8_div by lia. rewrite Z.pow_add_r, Z.div_div by lia. reflexivity. Qed.

Definition sim_record (s : simframe) (p : payload) : recorded :=
  mkRec (s_beam s mod 8) (s_tune s mod 8) (s_pol s mod 2) 0 0 (s_dec s) (s_toff s) (s_time s)
        (s_flags s / 2 ^ 32) (s_flags s) (quantise p).

Lemma pack4_eq : forall s, pack4 s = 16 * (fst s mod 16) + snd s mod 16.
Proof.
  intros [i q]. cbn [fst snd]. unfold pack4. cbn [fst snd].
  assert (Hn : forall x, nib x = x mod 16).
  { intro x. unfold nib, to_int8. change 15 with (2 ^ 4 - 1). rewrite land_mask by lia. change (2 ^ 4) with 16.
    rewrite Z.shiftl_mul_pow2 by lia. change (2 ^ 1) with 2.
    assert (H8 : exists k, Z.land x 8 = 8 * k).
    { exists (Z.land x 8 / 8).
      assert (Z.land x 8 mod 8 = 0).
      { change 8 with (2 ^ 3) at 2. rewrite <- Z.land_ones by lia. rewrite <- Z.land_assoc. apply Z.land_0_r. }
      lia. }
    destruct H8 as [k ->]. lia. }
  rewrite !Hn. assert (Hi : 0 <= i mod 16 < 16) by lia. assert (Hq : 0 <= q mod 16 < 16) by lia.
  generalize dependent (i mod 16). generalize dependent (q mod 16). clear. intros b Hb a Ha.
  pose proof (zseq_sweep (fun a => forallb (fun b =>
    Z.lor (to_int8 (Z.shiftl a 4)) b mod 256 =? 16 * a + b) (zseq 0 16)) 0 16 eq_refl a Ha) as H.
  cbv beta in H. rewrite forallb_forall in H. specialize (H b (zseq_In 16 0 b Hb)). apply Z.eqb_eq in H. exact H.
Qed.

Lemma frame_to_frame_bytes : forall s p,
  frame_to_frame (make_drx_id (s_beam s) (s_tune s) (s_pol s)) (0 * s_count s) (0 * (s_time s / fS))
     (s_dec s) (s_toff s) (s_time s) (s_flags s) p = drx_bytes (sim_record s p).
Proof.
  intros s p. unfold frame_to_frame, drx_bytes, header_bytes, sim_record. cbn [r_beam r_tune r_pol r_count r_secs r_dec r_toff r_tag r_word r_flags r_samples].
  rewrite be_3, !be_4, !be_2, be_8. unfold be at 1. cbn [le rev app].
  rewrite make_id_eq. unfold id_byte. cbn [r_beam r_tune r_pol].
  rewrite <- !b8_shift by lia. change (32 + 24) with 56. change (32 + 16) with 48. change (32 + 8) with 40. change (32 + 0) with 32.
  rewrite !Z.mul_0_l. replace (s_beam s mod 8 + 8 * (s_tune s mod 8) + 64 * 0 + 128 * (s_pol s mod 2))
    with (s_beam s mod 8 + 8 * (s_tune s mod 8) + 128 * (s_pol s mod 2)) by lia.
  repeat f_equal. clear. induction (quantise p) as [|x l IH]; [reflexivity|].
  cbn [map flat_map drx_sample app]. rewrite IH, pack4_eq. reflexivity.
Qed.

(** ** Quantisation *)
Lemma round_even_spec : forall q, nearest_even q (round_even q).
Proof.
  intros [n d]. unfold nearest_even, round_even, Qle, Qeq, inject_Z, Qminus, Qopp. cbn [Qnum Qden]. unfold Qplus. cbn [Qnum Qden].
  set (D := Zpos d). assert (HD : 0 < D) by (unfold D; lia).
  rewrite ?Pos2Z.inj_mul. fold D.
  pose proof (Z.div_mod n D ltac:(lia)) as HM. pose proof (Z.mod_pos_bound n D HD) as HB.
  set (f := n / D) in *. set (r := n mod D) in *. clearbody f r D.
  assert (HX : forall k, k = (if 2 * r <? D then f else if D <? 2 * r then f + 1 else if Z.even f then f else f + 1) ->
    (2 * k - 1) * D <= 2 * n /\ 2 * n <= (2 * k + 1) * D /\ (2 * n = (2 * k - 1) * D \/ 2 * n = (2 * k + 1) * D -> Z.even k = true)).
  { intros k ->. destruct (Z.ltb_spec (2 * r) D); [|destruct (Z.ltb_spec D (2 * r))].
    - split; [nia|]. split; [nia|]. intros [E|E]; exfalso; nia.
    - split; [nia|]. split; [nia|]. intros [E|E]; exfalso; nia.
    - assert (2 * r = D) by lia. destruct (Z.even f) eqn:Ef.
      + split; [nia|]. split; [nia|]. auto.
      + split; [nia|]. split; [nia|]. intros _. rewrite Z.even_add, Ef. reflexivity. }
  remember (if 2 * r <? D then f else if D <? 2 * r then f + 1 else if Z.even f then f else f + 1) as k eqn:Ek.
  destruct (HX k eq_refl) as (H1 & H2 & H3). clear HX Ek.
  split; [split; nia|]. intros [E|E]; apply H3; [left|right]; nia.
Qed.

Lemma nearest_even_unique : forall q a b, nearest_even q a -> nearest_even q b -> a = b.
Proof.
  intros [n d] a b. unfold nearest_even, Qle, Qeq, inject_Z, Qminus, Qopp. cbn [Qnum Qden]. unfold Qplus. cbn [Qnum Qden].
  set (D := Zpos d). assert (HD : 0 < D) by (unfold D; lia).
  rewrite ?Pos2Z.inj_mul. fold D. clearbody D.
  intros [[A1 A2] A3] [[B1 B2] B3].
  destruct (Z.eq_dec a b) as [|Hne]; auto. exfalso.
  assert (Ha : a + 1 = b \/ b + 1 = a).
  { destruct (Z_lt_ge_dec a b); [left|right]; nia. }
  destruct Ha as [E|E].
  - assert (Ea : Z.even a = true) by (apply A3; right; subst b; nia).
    assert (Eb : Z.even b = true) by (apply B3; left; subst b; nia).
    subst b. rewrite Z.even_add, Ea in Eb. discriminate.
  - assert (Ea : Z.even a = true) by (apply A3; left; subst a; nia).
    assert (Eb : Z.even b = true) by (apply B3; right; subst a; nia).
    subst a. rewrite Z.even_add, Eb in Ea. discriminate.
Qed.

Lemma round_even_int : forall k, round_even (inject_Z k) = k.
Proof.
  intro k. unfold round_even, inject_Z. cbn [Qnum Qden]. rewrite Z.mod_1_r, Z.div_1_r. reflexivity.
Qed.

Lemma clip4_saturate : forall v, clip4 v = saturate (-8) 7 v.
Proof. intro v. unfold clip4, saturate. destruct (Z.ltb_spec v (-8)), (Z.ltb_spec 7 v); lia. Qed.

Lemma round_even_mono : forall a b, (a <= b)%Q -> round_even a <= round_even b.
Proof.
  intros a b H. pose proof (round_even_spec a) as [[A1 A2] A3]. pose proof (round_even_spec b) as [[B1 B2] B3].
  destruct (Z_le_gt_dec (round_even a) (round_even b)) as [|Hg]; auto. exfalso.
  set (x := round_even a) in *. set (y := round_even b) in *.
  assert (HI : (inject_Z y + 1 <= inject_Z x)%Q).
  { change 1%Q with (inject_Z 1). rewrite <- inject_Z_plus. rewrite <- Zle_Qle. lia. }
  assert (E1 : (a == inject_Z x - (1 # 2))%Q) by lra.
  assert (E2 : (b == inject_Z y + (1 # 2))%Q) by lra.
  assert (E3 : (inject_Z x == inject_Z y + 1)%Q) by lra.
  assert (E4 : x = y + 1).
  { apply inject_Z_injective. rewrite inject_Z_plus. exact E3. }
  pose proof (A3 (or_introl E1)) as P1. pose proof (B3 (or_intror E2)) as P2.
  rewrite E4, Z.even_add, P2 in P1. discriminate.
Qed.
