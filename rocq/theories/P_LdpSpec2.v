(** Proofs about opening a DR spectrometer file and moving in it. *)
From Coq Require Import List ZArith Lia Bool QArith Qabs Lqa.
From Verif Require Import M_LdpSpec S_Drspec S_DrspecRun S_LdpSpec P_Drx P_Drx2 P_Cor P_Drspec P_DrspecT P_LdpReady P_LdpSpec P_Num LibBytes LibList.
Import ListNotations.
Open Scope Z_scope.
Ltac Zify.zify_post_hook ::= Z.div_mod_to_equations.

Definition desc_of (r0 : drs_rec) : sdesc := mkSD (drs_len r0) (frame_tint r0) (q_nfreq r0) (products (q_format r0)).

Lemma describe_good : forall a c r0, good_frame r0 ->
  spec_describe (mkFile (a ++ drs_bytes r0 ++ c) (zlen a)) = (mkFile (a ++ drs_bytes r0 ++ c) (zlen a), Ok (desc_of r0)).
Proof.
  intros a c r0 G. destruct (good_ok r0 G) as (W & N & F & T). destruct (C23_drspec_describe_proof a c r0 W) as (D1 & _ & _ & D4).
  destruct (D4 F) as [D5 _]. cbv zeta in D1, D5. unfold spec_describe. rewrite D1, D5. unfold drs_peek. rewrite read_good by auto. cbn [f_tell f_pos].
  pose proof (zlen_nonneg a). rewrite seek0 by lia. cbn [frame_for sf_head head_for s_dec s_format sf_tint s_nints].
  assert (ND : q_dec r0 <> 0). { unfold frame_tint in T. intro E. rewrite E in T. lia. }
  destruct (Z.eqb_spec (q_dec r0) 0); [contradiction|]. f_equal. f_equal. unfold desc_of.
  assert (H0 : 0 <= q_format r0 < 256) by apply W. destruct (products_ok _ H0) as [-> _]. rewrite drs_bytes_zlen by auto. reflexivity.
Qed.
Lemma open_good : forall junk r0 r1 rest, bytes_ok (junk ++ drs_bytes r0 ++ drs_bytes r1 ++ rest) -> good_frame r0 -> drs_ok r1 -> drs_len r1 = drs_len r0 ->
  no_header junk (drs_bytes r0 ++ drs_bytes r1 ++ rest) ->
  spec_open (junk ++ drs_bytes r0 ++ drs_bytes r1 ++ rest) =
  Ok (mkSO (mkFile (junk ++ drs_bytes r0 ++ drs_bytes r1 ++ rest) (zlen junk)) (desc_of r0) None).
Proof.
  intros junk r0 r1 rest B G W1 L NH. destruct (good_ok r0 G) as (W & _). pose proof (zlen_nonneg junk). unfold spec_open, spec_ready. cbn [f_data].
  rewrite align_finds; auto; [|lia|rewrite !app_length; unfold zlen; lia].
  destruct (C23_drspec_describe_proof (junk ++ drs_bytes r0) rest r1 W1) as (D1 & _). cbv zeta in D1. rewrite <- app_assoc in D1. rewrite D1.
  unfold f_seek. cbn [f_pos f_data]. change (1 =? 0) with false. change (1 =? 1) with true. cbv iota.
  rewrite zlen_app, !drs_bytes_zlen, L by auto. replace (zlen junk + drs_len r0 + - drs_len r0) with (zlen junk) by lia.
  destruct (Z.ltb_spec (zlen junk) 0); [lia|]. rewrite describe_good by auto. reflexivity.
Qed.
(** A file with a single frame cannot be opened. *)
Lemma open_single : forall junk r0, bytes_ok (junk ++ drs_bytes r0) -> drs_ok r0 -> no_header junk (drs_bytes r0) ->
  spec_open (junk ++ drs_bytes r0) = Raise EOFError.
Proof.
  intros junk r0 B W NH. pose proof (zlen_nonneg junk). unfold spec_open, spec_ready. cbn [f_data].
  pose proof (align_finds (S (length (junk ++ drs_bytes r0))) junk r0 [] 0) as A. rewrite !app_nil_r in A.
  rewrite A; auto; [|lia|rewrite app_length; unfold zlen; lia].
  unfold drs_frame_size. rewrite drs_at_end. reflexivity.
Qed.

Section Move.
Context (r0 : drs_rec) (G0 : good_frame r0) (junk : list Z).
Let size := drs_len r0.

Lemma bytes_split : forall (rs : list drs_rec) j, 0 <= j < zlen rs ->
  bytes rs = bytes (ztake j rs) ++ drs_bytes (znth r0 j rs) ++ bytes (zdrop (j + 1) rs).
Proof.
  intros rs j H.
  assert (E : rs = ztake j rs ++ znth r0 j rs :: zdrop (j + 1) rs).
  { rewrite <- (ztake_zdrop j rs) at 1. f_equal. revert j H. induction rs as [|r rs IH]; intros j H; [cbn in H; lia|].
    rewrite zlen_cons in H. destruct (Z.eq_dec j 0) as [->|NE]; [reflexivity|].
    unfold zdrop, znth in *. destruct (Z.ltb_spec j 0); [lia|]. specialize (IH (j - 1) ltac:(lia)). destruct (Z.ltb_spec (j - 1) 0); [lia|].
    replace (Z.to_nat j) with (S (Z.to_nat (j - 1))) by lia. replace (Z.to_nat (j + 1)) with (S (S (Z.to_nat (j - 1)))) by lia.
    cbn [skipn nth]. replace (Z.to_nat (j - 1 + 1)) with (S (Z.to_nat (j - 1))) in IH by lia. exact IH. }
  rewrite E at 1. rewrite bytes_app. reflexivity.
Qed.
Lemma ztake_fits : forall (rs : list drs_rec) j, 0 <= j < zlen rs -> Forall (fits r0) rs -> zlen (bytes (ztake j rs)) = j * size /\ fits r0 (znth r0 j rs).
Proof.
  intros rs j H F. split.
  - rewrite (bytes_zlen r0). { rewrite zlen_ztake by lia. unfold size. lia. }
    rewrite <- (ztake_zdrop j rs) in F. apply Forall_app in F. apply F.
  - rewrite Forall_forall in F. apply F. apply znth_In. auto.
Qed.
Lemma read_nth : forall rs c j, Forall (fits r0) rs -> 0 <= j < zlen rs ->
  read_drspec (mkFile (junk ++ bytes rs ++ c) (zlen junk + j * size)) =
  (mkFile (junk ++ bytes rs ++ c) (zlen junk + j * size + size), Got (frame_for (znth r0 j rs))).
Proof.
  intros rs c j F H. destruct (ztake_fits rs j H F) as [L FJ]. rewrite (bytes_split rs j H).
  replace (junk ++ (bytes (ztake j rs) ++ drs_bytes (znth r0 j rs) ++ bytes (zdrop (j + 1) rs)) ++ c)
    with ((junk ++ bytes (ztake j rs)) ++ drs_bytes (znth r0 j rs) ++ (bytes (zdrop (j + 1) rs) ++ c)) by (rewrite <- !app_assoc; reflexivity).
  replace (zlen junk + j * size) with (zlen (junk ++ bytes (ztake j rs))) by (rewrite zlen_app; lia).
  rewrite read_good by apply FJ. rewrite (zlen_app (junk ++ bytes (ztake j rs))). rewrite drs_bytes_zlen by apply FJ.
  rewrite (fits_len r0 _ FJ). reflexivity.
Qed.
Lemma describe_nth : forall rs c j, Forall (fits r0) rs -> 0 <= j < zlen rs ->
  spec_describe (mkFile (junk ++ bytes rs ++ c) (zlen junk + j * size)) = (mkFile (junk ++ bytes rs ++ c) (zlen junk + j * size), Ok (desc_of r0)).
Proof.
  intros rs c j F H. destruct (ztake_fits rs j H F) as [L FJ]. rewrite (bytes_split rs j H).
  replace (junk ++ (bytes (ztake j rs) ++ drs_bytes (znth r0 j rs) ++ bytes (zdrop (j + 1) rs)) ++ c)
    with ((junk ++ bytes (ztake j rs)) ++ drs_bytes (znth r0 j rs) ++ (bytes (zdrop (j + 1) rs) ++ c)) by (rewrite <- !app_assoc; reflexivity).
  replace (zlen junk + j * size) with (zlen (junk ++ bytes (ztake j rs))) by (rewrite zlen_app; lia).
  rewrite describe_good by apply FJ. do 2 f_equal. destruct FJ as [_ (S1 & S2 & S3 & S4)].
  unfold desc_of, frame_tint, drs_len. rewrite S1, S2, S3, S4. reflexivity.
Qed.
Lemma seek_rel : forall data p k, 0 <= p + k -> f_seek k 1 (mkFile data p) = (mkFile data (p + k), None).
Proof. intros data p k H. unfold f_seek. cbn [f_pos f_data]. change (1 =? 0) with false. change (1 =? 1) with true. cbv iota. destruct (Z.ltb_spec (p + k) 0); [lia|reflexivity]. Qed.
Lemma transform_good : forall r, good_frame r -> transform_size (frame_for r) = Ok (q_nfreq r).
Proof.
  intros r G. destruct (good_ok r G) as (W & N & F & T). destruct (C23_drspec_describe_proof [] [] r W) as (_ & _ & _ & D4).
  destruct (D4 F) as [D5 _]. cbv zeta in D5. unfold get_transform_size, drs_peek in D5. rewrite (read_good [] [] r W) in D5. congruence.
Qed.

(** Frames one integration time apart: the offset moves by the nearest number of frames. *)
Theorem offset_good : forall rs c i (o : Q) fuel tag, Forall (fits r0) rs -> (0 < fuel)%nat ->
  (forall j, 0 <= j < zlen rs -> frame_time (znth r0 j rs) = frame_time r0 + j * frame_tint r0) ->
  let k := py_round (o / inject_Z (frame_tint r0)) in
  0 <= i < zlen rs -> 0 <= i + k < zlen rs ->
  spec_offset fuel o (mkSO (mkFile (junk ++ bytes rs ++ c) (zlen junk + i * size)) (desc_of r0) tag) =
  (mkSO (mkFile (junk ++ bytes rs ++ c) (zlen junk + (i + k) * size)) (desc_of r0) None, Ok (k * frame_tint r0, true)).
Proof.
  intros rs c i o fuel tag F FU TS k Hi Hk. pose proof (zlen_nonneg junk) as J0. assert (S0 := len_pos r0). fold size in S0.
  destruct (good_ok r0 G0) as (_ & _ & _ & T0).
  unfold spec_offset. cbn [so_fh so_desc so_tag]. rewrite read_nth by auto. change (sd_size (desc_of r0)) with size. change (sd_tint (desc_of r0)) with (frame_tint r0).
  rewrite seek_rel by nia. destruct (Z.eqb_spec (frame_tint r0) 0); [lia|]. fold k. rewrite seek_rel by nia.
  destruct fuel as [|fuel]; [lia|]. cbn [offset_loop].
  replace (zlen junk + i * size + size + - size + k * size) with (zlen junk + (i + k) * size) by ring.
  rewrite read_nth by auto. change (sd_size (desc_of r0)) with size. rewrite seek_rel by nia.
  assert (FK : fits r0 (znth r0 (i + k) rs)). { rewrite Forall_forall in F. apply F. apply znth_In. auto. }
  destruct FK as [GK (S1 & S2 & S3 & S4)]. rewrite transform_good by auto. cbn [frame_for sf_head head_for s_dec].
  assert (TK : sf_tint (frame_for (znth r0 (i + k) rs)) (q_nfreq (znth r0 (i + k) rs)) = frame_tint r0).
  { unfold sf_tint. cbn [frame_for sf_head head_for s_nints s_dec]. unfold frame_tint. rewrite S2, S3, S4. reflexivity. }
  assert (DN : q_dec (znth r0 (i + k) rs) <> 0). { rewrite S4. intro E. unfold frame_tint in T0. rewrite E in T0. lia. }
  destruct (Z.eqb_spec (q_dec (znth r0 (i + k) rs)) 0); [contradiction|].
  change (mkSF (head_for (znth r0 (i + k) rs)) (exposed (head_for (znth r0 (i + k) rs)) (drs_words (znth r0 (i + k) rs)))) with (frame_for (znth r0 (i + k) rs)).
  rewrite TK. destruct (Z.eqb_spec (frame_tint r0) 0); [lia|]. rewrite !time_for, !TS by auto.
  assert (CZ : py_round (- (inject_Z (frame_time r0 + (i + k) * frame_tint r0) - (inject_Z (frame_time r0 + i * frame_tint r0) + o)) / 2 / inject_Z (frame_tint r0))%Q = 0).
  { apply py_round_near.
    assert (TQ : (0 < inject_Z (frame_tint r0))%Q) by (unfold Qlt; cbn; lia).
    assert (NR := py_round_spec (o / inject_Z (frame_tint r0))). fold k in NR.
    assert (E : (- (inject_Z (frame_time r0 + (i + k) * frame_tint r0) - (inject_Z (frame_time r0 + i * frame_tint r0) + o)) / 2 / inject_Z (frame_tint r0) - inject_Z 0
             == (1 # 2) * (o / inject_Z (frame_tint r0) - inject_Z k))%Q).
    { rewrite !inject_Z_plus, !inject_Z_mult, inject_Z_plus. field. intro X. rewrite X in TQ. discriminate TQ. }
    rewrite E. rewrite Qabs_Qmult. change (Qabs (1 # 2)) with (1 # 2)%Q. lra. }
  rewrite CZ. cbn [Z.eqb]. replace (zlen junk + (i + k) * size + size + - size) with (zlen junk + (i + k) * size) by ring.
  rewrite describe_nth by auto. do 3 f_equal. ring.
Qed.
End Move.

(** Whatever the file holds: an offset that does not give up ends at a frame within an integration time of the target. *)
Lemma loop_near : forall fuel d t0 o f used f' t, offset_loop fuel d t0 o f used = (f', Ok (t, true)) ->
  exists g x f1 l, read_drspec g = (f1, Got x) /\ f_seek (- sd_size d) 1 f1 = (f', None) /\
    t = sf_time x /\ transform_size x = Ok l /\ (Qabs (inject_Z t - inject_Z t0 - o) <= inject_Z (Z.abs (sf_tint x l)))%Q.
Proof.
  induction fuel as [|fuel IH]; intros d t0 o f used f' t H; [discriminate H|]. cbn [offset_loop] in H.
  destruct (read_drspec f) as [f1 [x| |loc]] eqn:ER; try discriminate H.
  destruct (f_seek (- sd_size d) 1 f1) as [f2 [e|]] eqn:ES; [discriminate H|].
  destruct (if s_dec (sf_head x) =? 0 then Raise ZeroDivisionError else transform_size x) as [l|e] eqn:ET; [|discriminate H].
  destruct (s_dec (sf_head x) =? 0); [discriminate ET|].
  destruct (Z.eqb_spec (sf_tint x l) 0) as [|NZ]; [discriminate H|]. cbv zeta in H.
  set (q := (- (inject_Z (sf_time x) - (inject_Z t0 + o)) / 2 / inject_Z (sf_tint x l))%Q) in *.
  destruct (Z.eqb_spec (py_round q) 0) as [C0|NC].
  - injection H as <- <-. exists f, x, f1, l. repeat split; auto.
    assert (NR := py_round_spec q). rewrite C0 in NR.
    assert (TN : ~ (inject_Z (sf_tint x l) == 0)%Q). { intro E. apply NZ. change 0%Q with (inject_Z 0) in E. rewrite inject_Z_injective in E. exact E. }
    assert (E : (inject_Z (sf_time x) - inject_Z t0 - o == - (2) * ((q - inject_Z 0) * inject_Z (sf_tint x l)))%Q).
    { unfold q. field. exact TN. }
    rewrite E, Qabs_Qmult, Qabs_Qmult. change (Qabs (- (2))) with 2%Q.
    assert (A : (Qabs (inject_Z (sf_tint x l)) == inject_Z (Z.abs (sf_tint x l)))%Q) by reflexivity.
    rewrite A. assert (A0 : (0 <= inject_Z (Z.abs (sf_tint x l)))%Q) by (unfold Qle; cbn; lia).
    set (u := Qabs (q - inject_Z 0)) in *. set (v := inject_Z (Z.abs (sf_tint x l))) in *. clearbody u v. clear - NR A0. nra.
  - destruct (f_seek (py_round q * sd_size d) 1 f2) as [f3 [e|]]; [discriminate H|].
    destruct (length _ / 4 <? distinct _)%nat; [|discriminate H]. apply (IH _ _ _ _ _ _ _ H).
Qed.
