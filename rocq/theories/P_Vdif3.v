(** VDIF: streams of frames and their description. *)
From Coq Require Import List ZArith Bool Lia QArith.
From Verif Require Import M_Vdif S_Vdif S_VdifRun P_Drx P_Drx2 P_Vdif P_Vdif2.
Import ListNotations.
Open Scope Z_scope.
Ltac Zify.zify_post_hook ::= Z.div_mod_to_equations.

Definition head_of (r : vrec) : vhead :=
  mkVH (b2z (r_invalid r)) (b2z (r_legacy r)) (r_secs r) (r_epoch r) (r_frame r) (r_version r)
       (2 ^ r_lognchan r) (frame_len r / 8) (b2z (r_complex r)) (r_bits r) (r_thread r) (r_station r)
       (fst (fst (fst (r_ext r)))) (snd (fst (fst (r_ext r)))) (snd (fst (r_ext r))) (snd (r_ext r)).

Lemma restore_eq : forall f f1, 0 <= f_pos f -> f_data f1 = f_data f -> v_restore f f1 = f.
Proof.
  intros f f1 H D. unfold v_restore, f_seek, f_tell. cbn [Z.eqb]. destruct (f_pos f <? 0) eqn:E; [lia|].
  cbn [fst]. rewrite D. destruct f; reflexivity.
Qed.

Section D.
Context {V : Type} (lut : Z -> Z -> V).
Let reader := read_vdif lut.

Lemma read_at_end : forall data, reader (mkFile data (zlen data)) = (mkFile data (zlen data), VEof).
Proof.
  intro data. unfold reader, read_vdif, f_read. cbn [f_pos f_data Z.ltb Z.compare].
  rewrite zdrop_all by lia. rewrite (ztake_all 16 []) by (cbn; lia). 
  change (zlen (@nil Z)) with 0. rewrite Z.add_0_r. reflexivity.
Qed.

Lemma read_stream_step : forall pre r rs, vdif_ok r ->
  exists h x, reader (mkFile (pre ++ flat_map vdif_bytes (r :: rs)) (zlen pre)) =
     (mkFile ((pre ++ vdif_bytes r) ++ flat_map vdif_bytes rs) (zlen (pre ++ vdif_bytes r)), VGot (h, x)) /\
     shows lut r h x.
Proof.
  intros pre r rs H. destruct (read_vdif_ok lut pre (flat_map vdif_bytes rs) r H) as (h & x & E & S).
  exists h, x. split; auto. cbn [flat_map]. unfold reader. rewrite E. rewrite zlen_app, vdif_bytes_zlen by auto.
  rewrite <- app_assoc. reflexivity.
Qed.

Lemma vreads_stream : forall rs pre n, Forall vdif_ok rs ->
  let data := pre ++ flat_map vdif_bytes rs in
  exists l, vreads reader (n + length rs) (mkFile data (zlen pre)) =
    (mkFile data (zlen data), l, match n with O => None | S _ => Some EOFError end) /\
    Forall2 (fun r hx => shows lut r (fst hx) (snd hx)) rs l.
Proof.
  intros rs. induction rs as [|r rs IH]; intros pre n H data.
  - exists []. split; [|constructor]. unfold data. cbn [flat_map length]. rewrite app_nil_r, Nat.add_0_r.
    destruct n; cbn [vreads]; [reflexivity|]. rewrite read_at_end. reflexivity.
  - inversion H as [|? ? H1 H2]; subst. destruct (read_stream_step pre r rs H1) as (h & x & E & SH).
    destruct (IH (pre ++ vdif_bytes r) n H2) as (l & E2 & F2).
    exists ((h, x) :: l). split; [|constructor; auto].
    cbn [length]. replace (n + S (length rs))%nat with (S (n + length rs)) by lia. cbn [vreads].
    unfold data. rewrite E, E2. cbn [flat_map]. rewrite app_assoc. reflexivity.
Qed.

(** ** Describing *)
Inductive chain (next : file -> file * vrd (vhead * vdata V)) : file -> list vrec -> Prop :=
| ch_nil : forall f f', next f = (f', VEof) -> f_data f' = f_data f -> chain next f []
| ch_cons : forall f f' r x rs, next f = (f', VGot (head_of r, x)) -> f_data f' = f_data f ->
    chain next f' rs -> chain next f (r :: rs).

Lemma stream_chain : forall fuel fs rs pre, Forall vdif_ok rs ->
  chain (v_next reader (S fuel) fs) (mkFile (pre ++ flat_map vdif_bytes rs) (zlen pre)) rs.
Proof.
  intros fuel fs rs. induction rs as [|r rs IH]; intros pre H.
  - cbn [flat_map]. rewrite app_nil_r. eapply ch_nil; [|reflexivity].
    cbn [v_next]. rewrite read_at_end. reflexivity.
  - inversion H as [|? ? H1 H2]; subst. destruct (read_stream_step pre r rs H1) as (h & x & E & S1).
    destruct S1 as [-> _]. eapply ch_cons.
    + cbn [v_next]. rewrite E. reflexivity.
    + cbn [f_data flat_map]. rewrite app_assoc. reflexivity.
    + apply IH. auto.
Qed.

Lemma thread_loop_chain : forall fuel fs n rs f seen, chain (v_next reader fuel fs) f rs ->
  exists f', thread_loop reader fuel n fs f seen = (f', Ok (fold_left (fun b x => add_new x b) (map r_thread (firstn n rs)) seen)) /\
    f_data f' = f_data f.
Proof.
  intros fuel fs n. induction n as [|n IH]; intros rs f seen H; [eexists; split; reflexivity|].
  inversion H as [? f' E D|? f' r x rs' E D C]; subst.
  - exists f'. cbn [thread_loop]. rewrite E. split; auto.
  - destruct (IH _ _ (add_new (r_thread r) seen) C) as (f2 & E2 & D2). exists f2. cbn [thread_loop firstn map fold_left].
    rewrite E. cbn [head_of h_thread]. rewrite E2. split; auto. congruence.
Qed.

Lemma frame_size_stream : forall pre r rs, vdif_ok r ->
  let f := mkFile (pre ++ flat_map vdif_bytes (r :: rs)) (zlen pre) in
  v_frame_size reader f = (f, Ok (frame_len r)).
Proof.
  intros pre r rs H f. unfold v_frame_size. destruct (read_stream_step pre r rs H) as (h & x & E & S1).
  destruct S1 as [-> _]. fold f in E. rewrite E. rewrite restore_eq.
  - cbn [h_length]. f_equal. f_equal. destruct (frame_len_units r H). lia.
  - cbn. apply zlen_nonneg.
  - unfold f. cbn [f_data flat_map]. rewrite app_assoc. reflexivity.
Qed.

Lemma thread_count_stream : forall pre r rs, Forall vdif_ok (r :: rs) ->
  let f := mkFile (pre ++ flat_map vdif_bytes (r :: rs)) (zlen pre) in
  thread_count reader f = (f, Ok (zlen (nodup Z.eq_dec (map r_thread (firstn 1024 (r :: rs)))))).
Proof.
  intros pre r rs H f. unfold thread_count. unfold f. rewrite frame_size_stream by (inversion H; auto). fold f.
  destruct (thread_loop_chain (v_fuel f) (frame_len r) 1024 (r :: rs) f [] (stream_chain (length (f_data f)) _ _ _ H)) as (f' & E & D).
  rewrite E. rewrite restore_eq; auto.
  - cbn [bind]. f_equal. f_equal. apply distinct_count; [apply NoDup_nodup|].
    intro y. apply nodup_In.
  - cbn. apply zlen_nonneg.
Qed.

(** The watch loop on keys. *)
Fixpoint watch_keys (nt : Z) (ref cur : list (Z * Z)) (fnd : list Z) (ks : list (Z * Z * Z)) : res (list (Z * Z)) :=
  match ks with
  | [] => Ok cur
  | (t, s', fr) :: r =>
      match dget t ref with
      | None => Raise KeyError
      | Some s =>
          let same := s' =? s in
          let cur' := if same then dset t fr cur else cur in
          let ref' := if same then ref else dset t s' ref in
          let fnd' := if same then fnd else add_new t fnd in
          if zlen fnd' =? nt then Ok cur' else watch_keys nt ref' cur' fnd' r
      end
  end.

Lemma watch_chain : forall fuel fs nt rs f n ref cur fnd, chain (v_next reader fuel fs) f rs -> (length rs < n)%nat ->
  exists f', watch_loop reader fuel n fs nt f ref cur fnd = (f', watch_keys nt ref cur fnd (map key rs)) /\ f_data f' = f_data f.
Proof.
  intros fuel fs nt rs. induction rs as [|r rs IH]; intros f n ref cur fnd H Hn; (destruct n as [|n]; [simpl in Hn; lia|]).
  - inversion H as [? f' E D|]; subst. exists f'. cbn [watch_loop]. rewrite E. auto.
  - inversion H as [|? f' ? x ? E D C]; subst. cbn [watch_loop map watch_keys key]. rewrite E. cbn [head_of h_thread h_secs h_frame].
    unfold key at 1. destruct (dget (r_thread r) ref) as [s|]; [|exists f'; auto]. cbv zeta.
    destruct (zlen (if r_secs r =? s then fnd else add_new (r_thread r) fnd) =? nt); [exists f'; auto|].
    destruct (IH f' n (if r_secs r =? s then ref else dset (r_thread r) (r_secs r) ref)
                 (if r_secs r =? s then dset (r_thread r) (r_frame r) cur else cur)
                 (if r_secs r =? s then fnd else add_new (r_thread r) fnd) C ltac:(simpl in Hn; lia)) as (f2 & E2 & D2).
    exists f2. split; [exact E2|congruence].
Qed.

Lemma ref_chain : forall fuel fs n rs f ref, chain (v_next reader fuel fs) f rs -> (n <= length rs)%nat ->
  exists f', ref_loop reader fuel n fs f ref = (f', Ok (fold_left (fun d r => dset (r_thread r) (r_secs r) d) (firstn n rs) ref)) /\
    f_data f' = f_data f /\ chain (v_next reader fuel fs) f' (skipn n rs).
Proof.
  intros fuel fs n. induction n as [|n IH]; intros rs f ref H Hn; [exists f; auto|].
  inversion H as [? f' E D|? f' r x rs' E D C]; subst; [simpl in Hn; lia|].
  destruct (IH _ _ (dset (r_thread r) (r_secs r) ref) C ltac:(simpl in Hn; lia)) as (f2 & E2 & D2 & C2).
  exists f2. cbn [ref_loop firstn skipn fold_left]. rewrite E. cbn [head_of h_thread h_secs].
  split; auto. split; [congruence|auto].
Qed.
End D.

(** ** Regular streams: dictionaries *)
Definition tab (v : Z) (ts : list Z) : list (Z * Z) := map (fun t => (t, v)) ts.

Lemma dget_tab : forall v w a b t, ~ In t a -> dget t (tab v a ++ (t, w) :: b) = Some w.
Proof.
  intros v w a b t. induction a as [|x a IH]; intro H; cbn [tab map app dget].
  - rewrite Z.eqb_refl. reflexivity.
  - destruct (t =? x) eqn:E; [exfalso; apply H; left; lia|]. apply IH. intro K. apply H. right. auto.
Qed.
Lemma dset_mid : forall v w u a b t, ~ In t a -> dset t u (tab v a ++ (t, w) :: b) = tab v a ++ (t, u) :: b.
Proof.
  intros v w u a b t. induction a as [|x a IH]; intro H; cbn [tab map app dset].
  - rewrite Z.eqb_refl. reflexivity.
  - destruct (t =? x) eqn:E; [exfalso; apply H; left; lia|]. f_equal. apply IH. intro K. apply H. right. auto.
Qed.
Lemma dset_new : forall v u a t, ~ In t a -> dset t u (tab v a) = tab v a ++ [(t, u)].
Proof.
  intros v u a t. induction a as [|x a IH]; intro H; cbn [tab map app dset]; auto.
  destruct (t =? x) eqn:E; [exfalso; apply H; left; lia|]. f_equal. apply IH. intro K. apply H. right. auto.
Qed.
Lemma tab_app : forall v a b, tab v (a ++ b) = tab v a ++ tab v b.
Proof. intros. apply map_app. Qed.
Lemma add_new_fresh : forall t l, ~ In t l -> add_new t l = l ++ [t].
Proof.
  intros t l H. unfold add_new. destruct (existsb (Z.eqb t) l) eqn:E; auto.
  apply existsb_exists in E. destruct E as (y & Hy & Ey). apply Z.eqb_eq in Ey. subst. contradiction.
Qed.

(** A row of the reference second when cur is empty. *)
Lemma row_first : forall ts a s v rest, NoDup (a ++ ts) -> ts <> [] ->
  watch_keys (zlen (a ++ ts)) (tab s (a ++ ts)) (tab v a) [] (map (fun t => (t, s, v)) ts ++ rest) =
  watch_keys (zlen (a ++ ts)) (tab s (a ++ ts)) (tab v (a ++ ts)) [] rest.
Proof.
  intros ts. induction ts as [|t ts IH]; intros a s v rest H Hne; [contradiction|].
  assert (Ht : ~ In t a).
  { apply NoDup_remove_2 in H. intro K. apply H. apply in_or_app. auto. }
  cbn [map app watch_keys]. rewrite tab_app. cbn [tab map]. rewrite dget_tab by auto. rewrite Z.eqb_refl. cbv zeta.
  change (zlen (@nil Z)) with 0. destruct (0 =? zlen (a ++ t :: ts)) eqn:E0.
  { rewrite zlen_app, zlen_cons in E0. pose proof (zlen_nonneg a). pose proof (zlen_nonneg ts). lia. }
  fold (tab v a). rewrite dset_new by auto.
  replace (tab v a ++ [(t, v)]) with (tab v (a ++ [t])) by (rewrite tab_app; reflexivity).
  replace (a ++ t :: ts) with ((a ++ [t]) ++ ts) in * by (rewrite <- app_assoc; reflexivity).
  fold (tab s ts). 
  replace (tab s a ++ (t, s) :: tab s ts) with (tab s ((a ++ [t]) ++ ts)) by (rewrite !tab_app, <- app_assoc; reflexivity).
  destruct ts as [|t' ts'].
  - cbn [map app]. rewrite !app_nil_r. rewrite !tab_app. reflexivity.
  - rewrite IH by (auto; discriminate). rewrite !tab_app. rewrite <- app_assoc. reflexivity.
Qed.

(** A later row of the same second. *)
Lemma row_same : forall ts a s v w rest, NoDup (a ++ ts) -> ts <> [] ->
  watch_keys (zlen (a ++ ts)) (tab s (a ++ ts)) (tab v a ++ tab w ts) [] (map (fun t => (t, s, v)) ts ++ rest) =
  watch_keys (zlen (a ++ ts)) (tab s (a ++ ts)) (tab v (a ++ ts)) [] rest.
Proof.
  intros ts. induction ts as [|t ts IH]; intros a s v w rest H Hne; [contradiction|].
  assert (Ht : ~ In t a).
  { apply NoDup_remove_2 in H. intro K. apply H. apply in_or_app. auto. }
  cbn [map app watch_keys]. rewrite tab_app. cbn [tab map]. rewrite dget_tab by auto. rewrite Z.eqb_refl. cbv zeta.
  change (zlen (@nil Z)) with 0. destruct (0 =? zlen (a ++ t :: ts)) eqn:E0.
  { rewrite zlen_app, zlen_cons in E0. pose proof (zlen_nonneg a). pose proof (zlen_nonneg ts). lia. }
  fold (tab v a). rewrite dset_mid by auto. fold (tab w ts).
  replace (tab v a ++ (t, v) :: tab w ts) with (tab v (a ++ [t]) ++ tab w ts) by (rewrite tab_app, <- app_assoc; reflexivity).
  replace (a ++ t :: ts) with ((a ++ [t]) ++ ts) in * by (rewrite <- app_assoc; reflexivity).
  fold (tab s ts). 
  replace (tab s a ++ (t, s) :: tab s ts) with (tab s ((a ++ [t]) ++ ts)) by (rewrite !tab_app, <- app_assoc; reflexivity).
  destruct ts as [|t' ts'].
  - cbn [map app]. rewrite !app_nil_r. rewrite !tab_app. reflexivity.
  - rewrite IH by (auto; discriminate). rewrite !tab_app. rewrite <- app_assoc. reflexivity.
Qed.

(** The first row of the next second ends the loop. *)
Lemma row_change : forall ts a s s' cur f rest, NoDup (a ++ ts) -> ts <> [] -> s <> s' ->
  watch_keys (zlen (a ++ ts)) (tab s' a ++ tab s ts) cur a (map (fun t => (t, s', f)) ts ++ rest) = Ok cur.
Proof.
  intros ts. induction ts as [|t ts IH]; intros a s s' cur f rest H Hne Hs; [contradiction|].
  assert (Ht : ~ In t a).
  { apply NoDup_remove_2 in H. intro K. apply H. apply in_or_app. auto. }
  cbn [map app watch_keys tab]. rewrite dget_tab by auto. destruct (s' =? s) eqn:E; [lia|]. cbv zeta.
  rewrite add_new_fresh by auto. rewrite dset_mid by auto. fold (tab s ts).
  replace (a ++ t :: ts) with ((a ++ [t]) ++ ts) in * by (rewrite <- app_assoc; reflexivity).
  destruct ts as [|t' ts'].
  - rewrite app_nil_r, Z.eqb_refl. reflexivity.
  - destruct (zlen (a ++ [t]) =? zlen ((a ++ [t]) ++ t' :: ts')) eqn:E0.
    { rewrite (zlen_app (a ++ [t])), zlen_cons in E0. pose proof (zlen_nonneg ts'). lia. }
    replace (tab s' a ++ (t, s') :: tab s (t' :: ts')) with (tab s' (a ++ [t]) ++ tab s (t' :: ts')) by (rewrite tab_app, <- app_assoc; reflexivity).
    apply IH; auto. discriminate.
Qed.

Lemma rows_same : forall m ts s0 R k w rest, NoDup ts -> ts <> [] -> 0 < R ->
  (forall i, 0 <= i < Z.of_nat m -> (k + i) / R = k / R) ->
  watch_keys (zlen ts) (tab (s0 + k / R) ts) (tab w ts) []
    (flat_map (fun k' => map (fun t => (t, s0 + k' / R, k' mod R)) ts) (zseq k m) ++ rest) =
  watch_keys (zlen ts) (tab (s0 + k / R) ts) (tab (match m with O => w | S _ => (k + Z.of_nat m - 1) mod R end) ts) [] rest.
Proof.
  induction m as [|m IH]; intros ts s0 R k w rest H Hne HR Hk; [reflexivity|].
  cbn [zseq flat_map]. rewrite <- app_assoc.
  pose proof (row_same ts [] (s0 + k / R) (k mod R) w) as RS. cbn [app tab map] in RS. fold (tab w ts) in RS.
  unfold tab in RS. cbn [map app] in RS. unfold tab. rewrite RS by auto. fold (tab (k mod R) ts) (tab (s0 + k / R) ts).
  destruct m as [|m].
  - cbn [zseq flat_map app]. replace (k + Z.of_nat 1 - 1) with k by lia. reflexivity.
  - assert (E1 : (k + 1) / R = k / R) by (apply Hk; lia).
    rewrite <- E1. rewrite IH; auto.
    + replace (k + 1 + Z.of_nat (S m) - 1) with (k + Z.of_nat (S (S m)) - 1) by lia. reflexivity.
    + intros i Hi. replace (k + 1 + i) with (k + (i + 1)) by lia. rewrite E1. apply Hk. lia.
Qed.

Lemma tally_repeat : forall n v c, 0 <= c -> tally (repeat v n) [(v, c)] = [(v, c + Z.of_nat n)].
Proof.
  induction n as [|n IH]; intros v c H; cbn [repeat tally].
  - do 2 f_equal. lia.
  - cbn [dget dset]. rewrite Z.eqb_refl. rewrite IH by lia. do 2 f_equal. lia.
Qed.
Lemma best_tab : forall v ts, ts <> [] -> best_of (tally (map snd (tab v ts)) []) = v.
Proof.
  intros v ts H. unfold tab. rewrite map_map. cbn [snd].
  destruct ts as [|t ts]; [contradiction|].
  assert (E : map (fun _ : Z => v) (t :: ts) = repeat v (S (length ts))).
  { clear. cbn [map repeat]. f_equal. induction ts; cbn; f_equal; auto. }
  rewrite E. cbn [repeat tally dget dset]. change (1 + 0) with 1. rewrite tally_repeat by lia.
  unfold best_of. cbn [fold_left snd fst]. destruct (0 <? 1 + Z.of_nat (length ts)) eqn:E2; [reflexivity|lia].
Qed.

Lemma map_firstn : forall A B (f : A -> B) n l, map f (firstn n l) = firstn n (map f l).
Proof. intros A B f n. induction n; intros [|x l]; cbn; f_equal; auto. Qed.
Lemma map_skipn : forall A B (f : A -> B) n l, map f (skipn n l) = skipn n (map f l).
Proof. intros A B f n. induction n; intros [|x l]; cbn; auto. Qed.

Lemma ref_fold : forall ks a s, NoDup (a ++ map (fun k => fst (fst k)) ks) -> Forall (fun k => snd (fst k) = s) ks ->
  fold_left (fun d k => dset (fst (fst k)) (snd (fst k)) d) ks (tab s a) = tab s (a ++ map (fun k : Z * Z * Z => fst (fst k)) ks).
Proof.
  induction ks as [|[[t s'] f] ks IH]; intros a s H HF; cbn [map fold_left fst snd] in *; [rewrite app_nil_r; auto|].
  inversion HF as [|? ? E1 E2]; subst. cbn [fst snd] in *.
  rewrite dset_new by (apply NoDup_remove_2 in H; intro K; apply H; apply in_or_app; auto).
  replace (tab s' a ++ [(t, s')]) with (tab s' (a ++ [t])) by (rewrite tab_app; reflexivity).
  rewrite IH; auto; [rewrite <- app_assoc; reflexivity|]. rewrite <- app_assoc. auto.
Qed.

Lemma fold_left_map : forall A B C (g : A -> B) (f : C -> B -> C) l c, fold_left f (map g l) c = fold_left (fun c a => f c (g a)) l c.
Proof. induction l; intro c; cbn; auto. Qed.

Lemma zseq_app : forall a b lo, zseq lo (a + b) = zseq lo a ++ zseq (lo + Z.of_nat a) b.
Proof.
  induction a as [|a IH]; intros b lo; cbn [Nat.add zseq app]; [f_equal; lia|].
  f_equal. rewrite IH. do 2 f_equal. lia.
Qed.

Lemma regular_threads : forall R s0 k0 n ts rs, regular R s0 k0 n ts rs ->
  map r_thread rs = flat_map (fun _ => ts) (zseq k0 n).
Proof.
  intros R s0 k0 n ts rs H. transitivity (map (fun k => fst (fst k)) (map key rs)); [rewrite map_map; reflexivity|].
  rewrite H. clear H. induction (zseq k0 n) as [|k ks IH]; [reflexivity|]. cbn [flat_map]. rewrite map_app, IH. f_equal.
  rewrite map_map. apply map_id.
Qed.

Lemma bytes_longer : forall l, Forall vdif_ok l -> (length l <= length (flat_map vdif_bytes l))%nat.
Proof.
  induction l as [|y l IHl]; intro Hl; [simpl; lia|]. inversion Hl; subst. cbn [flat_map length]. rewrite app_length.
  pose proof (vdif_bytes_zlen y H1). destruct (frame_len_units y H1) as [_ U]. specialize (IHl H2).
  unfold head_len in U. unfold zlen in H. destruct (r_legacy y); lia.
Qed.

Lemma fps_regular : forall V (lut : Z -> Z -> V) pre R s0 k0 n ts rs,
  Forall vdif_ok rs -> NoDup ts -> 1 <= zlen ts <= 1024 -> 1 < R -> 0 <= k0 ->
  regular R s0 k0 n ts rs ->
  k0 mod R < R - 1 ->                                 (* does not start with the last frame of a second *)
  R * (k0 / R + 1) < k0 + Z.of_nat n ->               (* contains the start of the next second *)
  let f := mkFile (pre ++ flat_map vdif_bytes rs) (zlen pre) in
  frames_per_second (read_vdif lut) f = (f, Ok R).
Proof.
  intros V lut pre R s0 k0 n ts rs HF Hts HT HR Hk0 Hreg Hm Hn f.
  assert (Hne : ts <> []) by (intro; subst; cbn in HT; lia).
  assert (Hm0 : 0 <= k0 mod R < R) by (apply Z.mod_pos_bound; lia).
  assert (Hdm : k0 = R * (k0 / R) + k0 mod R) by (apply Z.div_mod; lia).
  set (m := Z.to_nat (R - 1 - k0 mod R)).
  set (q := (n - 2 - m)%nat).
  assert (Hsplit : n = (1 + (m + (1 + q)))%nat) by (unfold q, m; nia).
  unfold regular in Hreg. rewrite Hsplit in Hreg. 
  assert (HthrL : map r_thread rs = flat_map (fun _ => ts) (zseq k0 n)) by (apply (regular_threads R s0); unfold regular; rewrite Hsplit; exact Hreg).
  rewrite !zseq_app in Hreg. cbn [zseq] in Hreg. rewrite !flat_map_app in Hreg. cbn [flat_map] in Hreg.
  rewrite !app_nil_r in Hreg. cbn [Z.of_nat Pos.of_succ_nat] in Hreg.
  set (R0 := map (fun t => (t, s0 + k0 / R, k0 mod R)) ts) in Hreg.
  set (R1 := flat_map (fun k => map (fun t => (t, s0 + k / R, k mod R)) ts) (zseq (k0 + 1) m)) in Hreg.
  set (k2 := k0 + 1 + Z.of_nat m) in Hreg.
  assert (Ek2 : k2 = R * (k0 / R + 1)) by (unfold k2, m; lia).
  set (R2 := map (fun t => (t, s0 + k2 / R, k2 mod R)) ts) in Hreg.
  set (R3 := flat_map (fun k => map (fun t => (t, s0 + k / R, k mod R)) ts) (zseq (k2 + 1) q)) in Hreg.
  destruct rs as [|r rs].
  { exfalso. unfold R0 in Hreg. destruct ts; [contradiction|]. cbn in Hreg. discriminate. }
  unfold frames_per_second. unfold f. rewrite frame_size_stream by (inversion HF; auto).
  rewrite thread_count_stream by auto. fold f.
  assert (HNT : zlen (nodup Z.eq_dec (map r_thread (firstn 1024 (r :: rs)))) = zlen ts).
  { rewrite map_firstn, HthrL. rewrite Hsplit. cbn [Nat.add zseq flat_map].
    assert (P1 : NoDup (nodup Z.eq_dec (firstn 1024 (ts ++ flat_map (fun _ => ts) (zseq (k0 + 1) (m + S q)))))) by apply NoDup_nodup.
    unfold zlen. f_equal. apply Nat.le_antisymm; apply NoDup_incl_length; auto.
    - intros x Hx. apply nodup_In in Hx. 
      assert (In x (ts ++ flat_map (fun _ => ts) (zseq (k0 + 1) (m + S q)))).
      { rewrite <- (firstn_skipn 1024 (ts ++ flat_map (fun _ => ts) (zseq (k0 + 1) (m + S q)))). apply in_or_app. auto. }
      apply in_app_or in H. destruct H; auto. apply in_flat_map in H. destruct H as (? & _ & ?). auto.
    - intros x Hx. apply nodup_In. rewrite firstn_app. apply in_or_app. left.
      rewrite firstn_all2; auto. unfold zlen in HT. clear - HT. 
      change 1024 with (Z.of_nat 1024) in HT. apply Nat2Z.inj_le. apply HT. }
  rewrite HNT.
  pose proof (stream_chain lut (length (f_data f)) (frame_len r) (r :: rs) pre HF) as CH. fold f in CH.
  change (S (length (f_data f))) with (v_fuel f) in CH.
  assert (HLr : (Z.to_nat (zlen ts) <= length (r :: rs))%nat).
  { rewrite <- (map_length key). rewrite Hreg. rewrite app_length. unfold R0. rewrite map_length. unfold zlen. lia. }
  destruct (ref_chain lut _ _ _ _ _ [] CH HLr) as (f2 & -> & D2 & C2).
  assert (HR0 : firstn (Z.to_nat (zlen ts)) (map key (r :: rs)) = R0 /\ skipn (Z.to_nat (zlen ts)) (map key (r :: rs)) = R1 ++ R2 ++ R3).
  { rewrite Hreg. unfold zlen. rewrite Nat2Z.id. replace (length ts) with (length R0) by (unfold R0; apply map_length). split.
    - rewrite firstn_app, Nat.sub_diag, firstn_all. cbn. apply app_nil_r.
    - rewrite skipn_app, Nat.sub_diag, skipn_all. reflexivity. }
  destruct HR0 as [F0 F1].
  assert (HREF : fold_left (fun d r0 => dset (r_thread r0) (r_secs r0) d) (firstn (Z.to_nat (zlen ts)) (r :: rs)) [] = tab (s0 + k0 / R) ts).
  { transitivity (fold_left (fun d k => dset (fst (fst k)) (snd (fst k)) d) (map key (firstn (Z.to_nat (zlen ts)) (r :: rs))) []).
    - rewrite fold_left_map. reflexivity.
    - rewrite map_firstn, F0. 
      assert (EM : map (fun k : Z * Z * Z => fst (fst k)) R0 = ts) by (unfold R0; rewrite map_map; apply map_id).
      pose proof (ref_fold R0 [] (s0 + k0 / R)) as RF. cbn [tab map app] in RF. rewrite EM in RF. apply RF; auto.
      unfold R0. apply Forall_map. apply Forall_forall. intros; reflexivity. }
  rewrite HREF.
  destruct (watch_chain lut _ _ (zlen ts) _ _ (v_fuel f) (tab (s0 + k0 / R) ts) [] [] C2) as (f3 & -> & D3).
  { rewrite skipn_length. unfold v_fuel. assert (length (r :: rs) <= length (f_data f))%nat; [|lia].
    unfold f. cbn [f_data]. rewrite app_length. pose proof (bytes_longer _ HF). lia. }
  rewrite restore_eq; [|cbn; apply zlen_nonneg|congruence].
  rewrite map_skipn, F1.
  assert (Hdiv : forall i, 0 <= i <= Z.of_nat m -> (k0 + i) / R = k0 / R).
  { intros i Hi. symmetry. apply (Z.div_unique (k0 + i) R (k0 / R) (k0 mod R + i)); [|lia]. left. unfold m in Hi. lia. }
  assert (Hm1 : exists m', m = S m') by (exists (m - 1)%nat; unfold m; lia). destruct Hm1 as [m' Hm'].
  assert (W : watch_keys (zlen ts) (tab (s0 + k0 / R) ts) [] [] (R1 ++ R2 ++ R3) = Ok (tab ((k0 + Z.of_nat m) mod R) ts)).
  { unfold R1. rewrite Hm'. cbn [zseq flat_map]. rewrite <- app_assoc.
    pose proof (row_first ts [] (s0 + k0 / R) ((k0 + 1) mod R)) as RF. cbn [app] in RF. unfold tab in RF at 2. cbn [map] in RF.
    rewrite (Hdiv 1) by lia. rewrite RF by auto.
    pose proof (rows_same m' ts s0 R (k0 + 1 + 1) ((k0 + 1) mod R) (R2 ++ R3) Hts Hne ltac:(lia)) as RS.
    destruct m' as [|m''].
    - cbn [zseq flat_map app]. 
      pose proof (row_change ts [] (s0 + k0 / R) (s0 + k2 / R) (tab ((k0 + 1) mod R) ts) (k2 mod R) R3 Hts Hne) as RC.
      cbn [app tab map] in RC. unfold R2, tab in *. rewrite RC.
      + reflexivity.
      + rewrite Ek2. rewrite (Z.mul_comm R), Z.div_mul by lia. lia.
    - replace ((k0 + 1 + 1) / R) with (k0 / R) in RS by (symmetry; rewrite <- Z.add_assoc; apply Hdiv; rewrite Hm'; clear; lia).
      rewrite RS.
      + pose proof (row_change ts [] (s0 + k0 / R) (s0 + k2 / R) (tab ((k0 + 1 + 1 + Z.of_nat (S m'') - 1) mod R) ts) (k2 mod R) R3 Hts Hne) as RC.
        cbn [app tab map] in RC. unfold R2, tab in *. rewrite RC.
        * replace (k0 + 1 + 1 + Z.of_nat (S m'') - 1) with (k0 + Z.of_nat (S (S m''))) by lia. reflexivity.
        * rewrite Ek2. rewrite (Z.mul_comm R), Z.div_mul by lia. lia.
      + intros i Hi. replace (k0 + 1 + 1 + i) with (k0 + (2 + i)) by (clear; lia). apply Hdiv. rewrite Hm'. clear - Hi. lia. }
  rewrite W. cbn [bind]. rewrite best_tab by auto. do 2 f_equal.
  assert ((k0 + Z.of_nat m) mod R = R - 1); [|lia].
  symmetry. apply (Z.mod_unique (k0 + Z.of_nat m) R (k0 / R)); [left; lia|]. unfold m. lia.
Qed.
