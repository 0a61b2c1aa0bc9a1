(** Proofs about DRSpecFile. *)
From Coq Require Import List ZArith Lia Bool QArith_base.
From Verif Require Import M_LdpSpec S_Drspec S_DrspecRun S_LdpSpec P_Drx P_Drx2 P_Cor P_Drspec P_LdpReady LibBytes LibList.
Import ListNotations.
Open Scope Z_scope.
Ltac Zify.zify_post_hook ::= Z.div_mod_to_equations.

Definition frame_for (r : drs_rec) : sframe := mkSF (head_for r) (exposed (head_for r) (drs_words r)).
Lemma read_good : forall a c r, drs_ok r ->
  read_drspec (mkFile (a ++ drs_bytes r ++ c) (zlen a)) = (mkFile (a ++ drs_bytes r ++ c) (zlen (a ++ drs_bytes r)), Got (frame_for r)).
Proof. intros a c r W. rewrite read_drspec_gen by auto. rewrite zlen_app, drs_bytes_zlen by auto. reflexivity. Qed.
Lemma time_for : forall r, sf_time (frame_for r) = frame_time r. Proof. reflexivity. Qed.

Lemma zseq_seq : forall n lo, zseq (Z.of_nat lo) n = map Z.of_nat (seq lo n).
Proof. induction n as [|n IH]; intro lo; [reflexivity|]. cbn [zseq seq map]. f_equal. rewrite <- IH. f_equal. lia. Qed.
Lemma list_as_map : forall (A : Type) (d : A) l, l = map (fun j => znth d j l) (zseq 0 (length l)).
Proof.
  intros A d l. apply (znth_ext d). { rewrite zlen_map, zseq_zlen. reflexivity. }
  intros i Hi. rewrite (znth_map _ _ _ 0) by (rewrite zseq_zlen; exact Hi). rewrite znth_zseq by exact Hi. reflexivity.
Qed.
Lemma find_keyed : forall (B : Type) (g : Z -> B) l p, In p l ->
  find (fun kv : Z * B => fst kv =? p) (map (fun b => (b, g b)) l) = Some (p, g p).
Proof.
  intros B g l p. induction l as [|b l IH]; intro H; [contradiction|]. cbn [map find fst].
  destruct (Z.eqb_spec b p) as [->|NE]; auto. destruct H as [H|H]; [congruence|auto].
Qed.

(** ** The rows of a frame *)
Definition row_of (t : Z) (r : drs_rec) (j : Z) : list scell := map SCell (spectrum r t (znth 0 j (products (q_format r))) j).
Definition rows_of (r : drs_rec) : list (list scell) :=
  map (row_of 0 r) (zseq 0 (length (products (q_format r)))) ++ map (row_of 1 r) (zseq 0 (length (products (q_format r)))).
Lemma spectrum_zlen : forall r t b j, drs_ok r -> zlen (spectrum r t b j) = q_nfreq r.
Proof.
  intros r t b j W. unfold spectrum. rewrite zlen_map. destruct (t =? 0); [reflexivity|].
  destruct W as (_ & _ & _ & _ & _ & _ & _ & _ & _ & _ & _ & _ & _ & _ & _ & _ & _ & HL & _). exact HL.
Qed.
Lemma good_ok : forall r, good_frame r -> drs_ok r /\ no_overflow r /\ In (q_format r) drs_formats /\ 0 < frame_tint r.
Proof. intros r (A & B & C & D). auto. Qed.
Lemma out_good : forall r j, good_frame r -> 0 <= j < zlen (products (q_format r)) ->
  let b := znth 0 j (products (q_format r)) in out_of (frame_for r) b = Some (spectrum r 0 b j, spectrum r 1 b j).
Proof.
  intros r j G Hj b. destruct (good_ok r G) as (W & N & F & _). unfold out_of, frame_for. cbn [sf_out]. rewrite exposed_eq.
  assert (H0 : 0 <= q_format r < 256) by apply W. destruct (products_ok _ H0) as [E _]. cbn [head_for s_format]. rewrite E.
  rewrite find_keyed by (apply znth_In; auto). destruct (parse_products r j W N F Hj) as [P0 P1]. cbv zeta in P0, P1. fold b in P0, P1.
  cbn [head_for] in *. rewrite P0, P1. reflexivity.
Qed.
Lemma fill_ok : forall lfft ls, Forall (fun l => zlen l = lfft) ls -> fill_rows lfft (map Some ls) = Ok (map (map SCell) ls).
Proof.
  intros lfft ls H. induction H as [|l ls H1 H2 IH]; [reflexivity|]. cbn [map fill_rows fill_row]. rewrite H1, Z.eqb_refl.
  cbn [bind]. rewrite IH. reflexivity.
Qed.

Section Rec.
Context (r0 : drs_rec) (G0 : good_frame r0).
Let d := mkSD (drs_len r0) (frame_tint r0) (q_nfreq r0) (products (q_format r0)).
Definition fits (r : drs_rec) : Prop := good_frame r /\ same_setup r0 r.

Lemma rows_good : forall r, fits r -> frame_rows d (frame_for r) = Ok (rows_of r).
Proof.
  intros r [G (S1 & S2 & S3 & S4)]. unfold frame_rows, d. cbn [sd_prods sd_lfft]. rewrite <- S1.
  destruct (good_ok r G) as (W & _ & _ & _).
  set (ps := products (q_format r)).
  assert (X : forall {B} (pr : list cell * list cell -> B) (f : Z -> B),
    (forall j, 0 <= j < zlen ps -> pr (spectrum r 0 (znth 0 j ps) j, spectrum r 1 (znth 0 j ps) j) = f j) ->
    map (fun p => option_map pr (out_of (frame_for r) p)) ps = map Some (map f (zseq 0 (length ps)))).
  { intros B pr f Hf. rewrite (list_as_map _ 0 ps) at 1. rewrite !map_map. apply map_ext_in. intros j Hj.
    assert (Hj' : 0 <= j < zlen ps). { rewrite <- (Z2Nat.id j) in Hj |- * by (clear - Hj; change 0 with (Z.of_nat 0) in Hj; rewrite zseq_seq in Hj; apply in_map_iff in Hj; destruct Hj as (? & <- & _); lia).
      change 0 with (Z.of_nat 0) in Hj at 1. rewrite zseq_seq in Hj. apply in_map_iff in Hj. destruct Hj as (k & E & Hk). apply in_seq in Hk. unfold zlen. lia. }
    pose proof (out_good r j G Hj') as OG. cbv zeta in OG. fold ps in OG. rewrite OG. cbn [option_map]. f_equal. apply Hf. auto. }
  rewrite (X _ fst (fun j => spectrum r 0 (znth 0 j ps) j)) by reflexivity.
  rewrite (X _ snd (fun j => spectrum r 1 (znth 0 j ps) j)) by reflexivity.
  rewrite <- map_app. rewrite fill_ok.
  - unfold rows_of, row_of. fold ps. rewrite map_app, !map_map. reflexivity.
  - apply Forall_app. split; apply Forall_forall; intros l Hl; apply in_map_iff in Hl; destruct Hl as (j & <- & _); rewrite spectrum_zlen; auto.
Qed.

Definition bytes (rs : list drs_rec) : list Z := flat_map drs_bytes rs.
Lemma fits_len : forall r, fits r -> drs_len r = drs_len r0.
Proof. intros r [G (S1 & S2 & S3 & S4)]. unfold drs_len. rewrite S1, S2. reflexivity. Qed.

(** ** The loop *)
Fixpoint chain (tag : Z) (rs : list drs_rec) : Prop :=
  match rs with [] => True | r :: rs' => 1000 * (frame_time r - tag) <= 1001 * frame_tint r0 /\ chain (frame_time r) rs' end.
Definition last_time (tag : Z) (rs : list drs_rec) : Z := fold_left (fun _ r => frame_time r) rs tag.
Definition first_time (t : option Z) (rs : list drs_rec) : option Z :=
  match t with Some _ => t | None => match rs with [] => None | r :: _ => Some (frame_time r) end end.

Lemma loop_good : forall ign n rs a c tag got t, Forall fits rs -> (ign = true \/ chain tag (firstn n rs)) -> (n <= length rs)%nat \/ c = [] ->
  spec_loop ign n d (mkFile (a ++ bytes rs ++ c) (zlen a)) tag got t =
  (mkFile (a ++ bytes rs ++ c) (zlen (a ++ bytes (firstn n rs))), last_time tag (firstn n rs),
   Ok (got ++ map rows_of (firstn n rs), first_time t (firstn n rs))).
Proof.
  intros ign. induction n as [|n IH]; intros rs a c tag got t HF HC HN.
  - cbn [spec_loop firstn bytes flat_map map last_time fold_left]. rewrite !app_nil_r. destruct t; reflexivity.
  - destruct rs as [|r rs].
    + destruct HN as [HN|HN]; [cbn in HN; lia|]. subst c. cbn [spec_loop firstn bytes flat_map map app last_time fold_left].
      rewrite !app_nil_r. rewrite drs_at_end. destruct t; reflexivity.
    + inversion HF as [|? ? HR HF']; subst. cbn [spec_loop bytes flat_map]. rewrite <- app_assoc. fold (bytes rs).
      rewrite read_good by apply HR.
      cbv zeta. rewrite time_for. cbn [firstn chain] in HC.
      assert (L : late (sd_tint d) tag (frame_time r) && negb ign = false).
      { destruct HC as [-> | [HC _]]; [apply andb_false_r|]. unfold late, d. cbn [sd_tint]. destruct (Z.ltb_spec (1001 * frame_tint r0) (1000 * (frame_time r - tag))); [lia|reflexivity]. }
      rewrite L. rewrite (rows_good r HR).
      rewrite (app_assoc a). rewrite IH; auto.
      * cbn [firstn map]. f_equal; [f_equal|].
        -- f_equal. cbn [flat_map]. rewrite <- app_assoc. reflexivity.
        -- f_equal. rewrite <- app_assoc. destruct t; reflexivity.
      * destruct HC as [HC|[_ HC]]; auto.
      * destruct HN as [HN|HN]; auto. cbn [length] in HN. lia.
Qed.

(** ** The array *)
Lemma seq_shift_n : forall n k, seq k n = map (fun j => (k + j)%nat) (seq 0 n).
Proof.
  induction n as [|n IH]; intro k; [reflexivity|]. cbn [seq map]. f_equal; [lia|]. rewrite (IH (S k)), (IH 1%nat), map_map.
  apply map_ext. intro. lia.
Qed.
Lemma array_good : forall n now, Forall fits now -> spec_array d n (map rows_of now) = spectra (q_format r0) (q_nfreq r0) n now.
Proof.
  intros n now HF. unfold spec_array, spectra, d. cbn [sd_prods sd_lfft flat_map]. rewrite app_nil_r, map_length.
  set (m := length (products (q_format r0))). replace (2 * m)%nat with (m + m)%nat by lia. rewrite seq_app, map_app. cbn [Nat.add].
  assert (NR : forall r k, fits r -> (k < m)%nat -> nth k (rows_of r) [] = row_of 0 r (Z.of_nat k) /\ nth (m + k) (rows_of r) [] = row_of 1 r (Z.of_nat k)).
  { intros r k [_ (S1 & _)] Hk. unfold rows_of. rewrite S1. fold m. change (zseq 0 m) with (zseq (Z.of_nat 0) m). rewrite zseq_seq, !map_map. split.
    - rewrite app_nth1 by (rewrite map_length, seq_length; auto). rewrite (nth_indep _ [] (row_of 0 r (Z.of_nat 0))) by (rewrite map_length, seq_length; auto).
      rewrite (map_nth (fun x => row_of 0 r (Z.of_nat x))). rewrite seq_nth by auto. reflexivity.
    - rewrite app_nth2 by (rewrite map_length, seq_length; lia). rewrite map_length, seq_length.
      replace (m + k - m)%nat with k by lia. rewrite (nth_indep _ [] (row_of 1 r (Z.of_nat 0))) by (rewrite map_length, seq_length; auto).
      rewrite (map_nth (fun x => row_of 1 r (Z.of_nat x))). rewrite seq_nth by auto. reflexivity. }
  change (zseq 0 m) with (zseq (Z.of_nat 0) m). rewrite zseq_seq. rewrite (seq_shift_n m m). rewrite !map_map.
  f_equal; apply map_ext_in; intros k Hk; apply in_seq in Hk; f_equal; rewrite map_map; apply map_ext_in; intros r Hr;
    rewrite Forall_forall in HF; specialize (HF r Hr); destruct (NR r k HF ltac:(lia)) as [N0 N1]; [rewrite N0|rewrite N1];
    unfold row_of; destruct HF as [_ (S1 & _)]; rewrite S1; reflexivity.
Qed.

(** ** Whole sequences of reads *)
Lemma asked_n : forall n, 0 <= n -> (if n =? 0 then 1 else n) = Z.max n 1.
Proof. intros n H. destruct (Z.eqb_spec n 0); lia. Qed.
Lemma chain_skip : forall n rs tag, chain tag rs -> chain tag (firstn n rs) /\ chain (last_time tag (firstn n rs)) (skipn n rs).
Proof.
  induction n as [|n IH]; intros rs tag H; [split; [exact I|exact H]|]. destruct rs as [|r rs]; [split; exact I|].
  cbn [firstn skipn chain] in *. destruct H as [H1 H2]. destruct (IH rs (frame_time r) H2) as [A B]. auto.
Qed.
Lemma bytes_app : forall a b, bytes (a ++ b) = bytes a ++ bytes b. Proof. intros. apply flat_map_app. Qed.
Lemma bytes_zlen : forall rs, Forall fits rs -> zlen (bytes rs) = drs_len r0 * zlen rs.
Proof.
  intros rs H. induction H as [|r rs H1 H2 IH]; [cbn; lia|]. cbn [bytes flat_map]. fold (bytes rs). rewrite zlen_app, IH, zlen_cons, drs_bytes_zlen by apply H1.
  rewrite (fits_len r H1). lia.
Qed.
Lemma len_pos : 76 <= drs_len r0.
Proof. unfold drs_len. pose proof (zlen_nonneg (products (q_format r0))). pose proof (zlen_nonneg (q_spec0 r0)). fold (q_nfreq r0) in *. nia. Qed.

(** the state of self._timetag matches what is left *)
Definition ready_for (tag : option Z) (rs : list drs_rec) : Prop :=
  match tag with None => match rs with [] => True | r :: rs' => chain (frame_time r) rs' end | Some t => chain t rs end.
Lemma first_good : forall a c tag r rs, fits r ->
  spec_first (mkSO (mkFile (a ++ bytes (r :: rs) ++ c) (zlen a)) d tag) =
  (mkSO (mkFile (a ++ bytes (r :: rs) ++ c) (zlen a)) d (Some (match tag with Some t => t | None => frame_time r - frame_tint r0 end)), None).
Proof.
  intros a c tag r rs F. unfold spec_first. cbn [so_tag so_fh so_desc]. destruct tag as [t|]; [reflexivity|].
  cbn [bytes flat_map]. fold (bytes rs). rewrite <- app_assoc. rewrite read_good by apply F. pose proof (fits_len r F) as L.
  unfold f_seek. cbn [f_pos f_data]. change (1 =? 0) with false. change (1 =? 1) with true. cbv iota.
  rewrite zlen_app, drs_bytes_zlen by apply F. change (sd_size d) with (drs_len r0). rewrite L.
  replace (zlen a + drs_len r0 + - drs_len r0) with (zlen a) by lia. pose proof (zlen_nonneg a). destruct (Z.ltb_spec (zlen a) 0); [lia|]. reflexivity.
Qed.
Lemma read_step : forall ign n a c tag r rs, 0 <= n -> Forall fits (r :: rs) ->
  (ign = true \/ chain (match tag with Some t => t | None => frame_time r - frame_tint r0 end) (firstn (asked n) (r :: rs))) ->
  (asked n <= length (r :: rs))%nat \/ c = [] ->
  let now := firstn (asked n) (r :: rs) in
  spec_read ign n (mkSO (mkFile (a ++ bytes (r :: rs) ++ c) (zlen a)) d tag) =
  (mkSO (mkFile (a ++ bytes (r :: rs) ++ c) (zlen (a ++ bytes now))) d (Some (last_time 0 now)),
   Ok (length now, Some (frame_time r), spectra (q_format r0) (q_nfreq r0) (asked n) now)).
Proof.
  intros ign n a c tag r rs H0 HF HC HN now. unfold spec_read. cbn [so_fh f_tell f_pos f_data so_desc].
  assert (LP := len_pos). assert (HR : fits r) by (inversion HF; auto).
  assert (GE : zlen a <> zlen (a ++ bytes (r :: rs) ++ c)).
  { rewrite !zlen_app, bytes_zlen, zlen_cons by auto. pose proof (zlen_nonneg c). pose proof (zlen_nonneg rs). nia. }
  destruct (Z.eqb_spec (zlen a) (zlen (a ++ bytes (r :: rs) ++ c))); [contradiction|]. rewrite first_good by auto.
  destruct G0 as (_ & _ & T0 & _). unfold d at 1. cbn [sd_tint]. destruct (Z.eqb_spec (frame_tint r0) 0); [lia|].
  cbv zeta. rewrite asked_n by auto. destruct (Z.ltb_spec (Z.max n 1) 0); [lia|]. cbn [so_tag so_fh].
  fold (asked n). rewrite loop_good by auto. fold now. cbn [bind app].
  assert (NE : exists x, now = r :: x). { unfold now, asked. destruct (Z.to_nat (Z.max n 1)) eqn:E; [lia|]. cbn [firstn]. eexists. reflexivity. }
  f_equal.
  - f_equal. f_equal. destruct NE as [x ->]. reflexivity.
  - rewrite map_length. f_equal. f_equal; [f_equal|].
    + destruct NE as [x ->]. reflexivity.
    + apply array_good. apply Forall_forall. intros x Hx. rewrite Forall_forall in HF. apply HF. rewrite <- (firstn_skipn (asked n) (r :: rs)). apply in_or_app. auto.
Qed.
Lemma forall_skip : forall n (rs : list drs_rec) P, Forall P rs -> Forall P (firstn n rs) /\ Forall P (skipn n rs).
Proof. intros n rs P H. apply Forall_app. rewrite firstn_skipn. auto. Qed.

Theorem in_order : forall ign ns rs a tag, Forall (fun n => 0 <= n) ns -> Forall fits rs -> (ign = true \/ ready_for tag rs) ->
  spec_reads ign ns (mkSO (mkFile (a ++ bytes rs) (zlen a)) d tag) = returned r0 ns rs.
Proof.
  intros ign. induction ns as [|n ns IH]; intros rs a tag HN HF HC; [reflexivity|]. inversion HN as [|? ? N0 HN']; subst.
  destruct rs as [|r rs].
  - cbn [spec_reads returned bytes flat_map]. rewrite app_nil_r. unfold spec_read. cbn [so_fh f_tell f_pos f_data]. rewrite Z.eqb_refl. f_equal.
    specialize (IH [] a tag HN' HF HC). cbn [bytes flat_map] in IH. rewrite app_nil_r in IH. exact IH.
  - cbn [spec_reads returned]. set (now := firstn (asked n) (r :: rs)).
    assert (CH : ign = true \/ chain (match tag with Some t => t | None => frame_time r - frame_tint r0 end) (r :: rs)).
    { destruct HC as [HC|HC]; auto. right. destruct tag as [t|]; [exact HC|]. cbn [ready_for] in HC. cbn [chain]. split; [|exact HC].
      destruct G0 as (_ & _ & T0 & _). lia. }
    rewrite <- (app_nil_r (bytes (r :: rs))).
    rewrite read_step; auto.
    2: { destruct CH as [CH|CH]; [left; exact CH|right]. apply chain_skip. exact CH. }
    fold now. f_equal. rewrite app_nil_r.
    assert (E : a ++ bytes (r :: rs) = (a ++ bytes now) ++ bytes (skipn (asked n) (r :: rs))).
    { rewrite <- app_assoc. f_equal. unfold now. rewrite <- bytes_app, firstn_skipn. reflexivity. }
    rewrite E. apply IH; auto.
    + apply forall_skip. exact HF.
    + destruct CH as [CH|CH]; [left; exact CH|right]. apply (chain_skip (asked n)) in CH. destruct CH as [_ CH]. cbn [ready_for].
      unfold now. assert (NE : exists x, firstn (asked n) (r :: rs) = r :: x). { unfold asked. destruct (Z.to_nat (Z.max n 1)) eqn:E1; [lia|]. cbn [firstn]. eexists. reflexivity. }
      destruct NE as [x EX]. rewrite EX in *. exact CH.
Qed.

(** After a jump: nothing more can be read. *)
Theorem after_jump : forall ns rs a t, Forall (fun n => 0 <= n) ns -> Forall fits rs ->
  Forall (fun r => 1001 * frame_tint r0 < 1000 * (frame_time r - t)) rs ->
  spec_reads false ns (mkSO (mkFile (a ++ bytes rs) (zlen a)) d (Some t)) =
  map (fun k => if (k <? length rs)%nat then Raise RuntimeError else Raise EOFError) (seq 0 (length ns)).
Proof.
  induction ns as [|n ns IH]; intros rs a t HN HF HJ; [reflexivity|]. inversion HN as [|? ? N0 HN']; subst.
  cbn [spec_reads length seq map]. destruct rs as [|r rs].
  - cbn [bytes flat_map]. rewrite app_nil_r. unfold spec_read. cbn [so_fh f_tell f_pos f_data]. rewrite Z.eqb_refl. cbn [length Nat.ltb Nat.leb]. f_equal.
    specialize (IH [] a t HN' HF HJ). cbn [bytes flat_map] in IH. rewrite app_nil_r in IH. rewrite IH. rewrite (seq_shift_n _ 1), map_map. reflexivity.
  - inversion HF as [|? ? HR HF']; subst. inversion HJ as [|? ? J HJ']; subst.
    assert (E : spec_read false n (mkSO (mkFile (a ++ bytes (r :: rs)) (zlen a)) d (Some t)) =
                (mkSO (mkFile (a ++ bytes (r :: rs)) (zlen (a ++ drs_bytes r))) d (Some t), Raise RuntimeError)).
    { unfold spec_read. cbn [so_fh f_tell f_pos f_data so_desc].
      assert (LP := len_pos).
      assert (GE : zlen a <> zlen (a ++ bytes (r :: rs))).
      { rewrite !zlen_app, bytes_zlen, zlen_cons by auto. pose proof (zlen_nonneg rs). nia. }
      destruct (Z.eqb_spec (zlen a) (zlen (a ++ bytes (r :: rs)))); [contradiction|]. cbn [spec_first so_tag].
      destruct G0 as (_ & _ & T0 & _). unfold d at 1. cbn [sd_tint]. destruct (Z.eqb_spec (frame_tint r0) 0); [lia|].
      cbv zeta. rewrite asked_n by auto. destruct (Z.ltb_spec (Z.max n 1) 0); [lia|]. cbn [so_tag so_fh].
      destruct (Z.to_nat (Z.max n 1)) eqn:E1; [lia|]. cbn [spec_loop]. cbn [bytes flat_map]. fold (bytes rs). rewrite read_good by apply HR.
      cbv zeta. rewrite time_for. unfold late. unfold d at 1. cbn [sd_tint]. destruct (Z.ltb_spec (1001 * frame_tint r0) (1000 * (frame_time r - t))); [|lia]. reflexivity. }
    rewrite E. cbn [length Nat.ltb Nat.leb]. f_equal. cbn [bytes flat_map]. fold (bytes rs). rewrite app_assoc. rewrite IH by auto.
    rewrite (seq_shift_n _ 1), map_map. apply map_ext. intro k. cbn [Nat.add]. reflexivity.
Qed.
End Rec.

(** ** Damaged and incomplete frames *)
Lemma stuck_loop : forall ign n d f tag got t loc, read_drspec f = (f, BadSync loc) -> spec_loop ign n d f tag got t = (f, tag, Ok (got, t)).
Proof. intros ign n d f tag got t loc H. induction n as [|n IH]; [reflexivity|]. cbn [spec_loop]. rewrite H. exact IH. Qed.
Lemma stuck : forall ign ns f d t loc, read_drspec f = (f, BadSync loc) -> 0 < sd_tint d -> Forall (fun n => 1 <= n) ns -> f_pos f <> zlen (f_data f) ->
  spec_reads ign ns (mkSO f d (Some t)) = map (fun n => Ok (0%nat, None, spec_array d (Z.to_nat n) [])) ns.
Proof.
  intros ign ns f d t loc H T HN P. induction HN as [|n ns N0 HN IH]; [reflexivity|]. cbn [spec_reads map].
  assert (E : spec_read ign n (mkSO f d (Some t)) = (mkSO f d (Some t), Ok (0%nat, None, spec_array d (Z.to_nat n) []))).
  { unfold spec_read. cbn [so_fh so_desc spec_first so_tag]. change (f_tell f) with (f_pos f). destruct (Z.eqb_spec (f_pos f) (zlen (f_data f))); [contradiction|].
    destruct (Z.eqb_spec (sd_tint d) 0); [lia|]. cbv zeta. destruct (Z.eqb_spec n 0); [lia|]. destruct (Z.ltb_spec n 0); [lia|].
    rewrite (stuck_loop _ _ _ _ _ _ _ loc H). reflexivity. }
  rewrite E. f_equal. exact IH.
Qed.

(** ** Opening *)
Lemma bad_header : forall data i, bytes_ok data -> 0 <= i -> i + 76 <= zlen data -> ~ header_at data i ->
  read_drspec (mkFile data i) = (mkFile data i, BadSync i).
Proof.
  intros data i B H0 H NH. unfold read_drspec.
  assert (RL : f_read 76 (mkFile data i) = (mkFile data (i + 76), slice i 76 data)).
  { unfold f_read. cbn [f_data f_pos]. change (76 <? 0) with false. cbv iota. fold (slice i 76 data). rewrite slice_zlen by lia. reflexivity. }
  rewrite RL. rewrite slice_zlen by lia. rewrite Z.eqb_refl. cbn [negb].
  assert (V : (s_magic1 (drs_head (slice i 76 data)) =? 3235823838) && (s_magic2 (drs_head (slice i 76 data)) =? 3977047308) = false).
  { apply not_true_iff_false. intro V. apply andb_prop in V. destruct V as [V1 V2]. apply Z.eqb_eq in V1. apply Z.eqb_eq in V2.
    cbn [drs_head s_magic1 s_magic2] in V1, V2. apply NH.
    assert (X : forall k, 0 <= k -> k + 4 <= 76 -> slice k 4 (slice i 76 data) = slice (i + k) 4 data).
    { intros k K0 K1. unfold slice. rewrite <- (ztake_zdrop k (ztake 76 (zdrop i data))) at 1.
      rewrite zdrop_app_ge by (rewrite !zlen_ztake, zlen_zdrop by lia; lia). rewrite !zlen_ztake, zlen_zdrop by lia.
      replace (k - Z.min k (Z.min 76 (Z.max 0 (zlen data - i)))) with 0 by lia. rewrite zdrop_0 by lia.
      rewrite <- (ztake_zdrop k (zdrop i data)) at 1. rewrite ztake_app_ge by (rewrite zlen_ztake, zlen_zdrop by lia; lia).
      rewrite zdrop_app_ge by (rewrite zlen_ztake, zlen_zdrop by lia; lia). rewrite !zlen_ztake, zlen_zdrop by lia.
      replace (k - Z.min k (Z.max 0 (zlen data - i))) with 0 by lia. rewrite zdrop_0 by lia.
      rewrite ztake_ztake. rewrite zdrop_zdrop by lia. f_equal; [lia|]. f_equal. lia. }
    assert (Y : forall k v bs, 0 <= k -> k + 4 <= 76 -> le_val (slice k 4 (slice i 76 data)) = v -> le 4 v = bs -> slice (i + k) 4 data = bs).
    { intros k v bs K0 K1 E L. rewrite X in E by auto. rewrite <- L, <- E.
      assert (Z4 : zlen (slice (i + k) 4 data) = 4) by (apply slice_zlen; lia).
      replace 4%nat with (length (slice (i + k) 4 data)) by (unfold zlen in Z4; lia). symmetry. apply le_le_val. apply slice_ok. auto. }
    split; [rewrite <- (Z.add_0_r i); apply (Y 0 _ _ ltac:(lia) ltac:(lia) V1); reflexivity|apply (Y 72 _ _ ltac:(lia) ltac:(lia) V2); reflexivity]. }
  rewrite V. cbn [negb]. cbv zeta. rewrite seek1 by lia. cbn [f_tell f_pos]. replace (i + 76 + -76) with i by lia. reflexivity.
Qed.
Lemma align_finds : forall fuel junk r rest i, bytes_ok (junk ++ drs_bytes r ++ rest) -> drs_ok r ->
  no_header junk (drs_bytes r ++ rest) -> 0 <= i <= zlen junk -> (Z.to_nat (zlen junk - i) < fuel)%nat ->
  spec_align fuel (mkFile (junk ++ drs_bytes r ++ rest) i) = (mkFile (junk ++ drs_bytes r ++ rest) (zlen (junk ++ drs_bytes r)), Ok tt).
Proof.
  induction fuel as [|fuel IH]; intros junk r rest i B W NH Hi HF; [lia|]. cbn [spec_align].
  destruct (Z.eq_dec i (zlen junk)) as [->|NE]; [rewrite read_good by auto; reflexivity|].
  assert (76 <= zlen (drs_bytes r)). { rewrite drs_bytes_zlen by auto. unfold drs_len. pose proof (zlen_nonneg (products (q_format r))). pose proof (zlen_nonneg (q_spec0 r)). unfold q_nfreq. nia. }
  pose proof (zlen_nonneg rest).
  rewrite bad_header; auto; [|lia|rewrite !zlen_app; lia|apply NH; lia]. rewrite seek1 by lia. apply IH; auto; lia.
Qed.
