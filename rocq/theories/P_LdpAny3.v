(** LWADataFile as a whole. *)
From Coq Require Import List ZArith Bool Lia.
From Verif Require Import LibBytes M_LdpAny S_Drx S_Drspec S_Cor S_LdpReady S_LdpSpec S_LdpAny P_Drx P_Drspec P_LdpReady P_LdpSpec P_Cor P_Tbx P_CorDesc P_CorT P_LdpAny P_LdpAny2.
Import ListNotations.
Open Scope Z_scope.

(** ** The chain over abstract turns *)
Section Chain.
Context (drx drx8 drspec : file -> file * res verdict) (tbx : tcache -> file -> tcache * file * res verdict) (cor : ccache -> file -> ccache * file * res verdict).
Context (data : list Z) (c : ccache) (t : tcache).
Let f0 := mkFile data 0.
Let run := try_modes drx drx8 drspec tbx cor c t f0.
Lemma chain1 : forall p v, drx f0 = (mkFile data p, v) ->
  match v with
  | Ok Found => run = (c, t, f0, Ok DRX)
  | Ok GaveUp => run = (c, t, f0, Raise RuntimeError)
  | _ => True
  end.
Proof. intros p v H. unfold run, try_modes. rewrite H. destruct v as [[]|]; auto; rewrite seek0_ok by lia; reflexivity. Qed.
Lemma chain2 : forall p v, drx f0 = (f0, Ok NextMode) -> drx8 f0 = (mkFile data p, v) ->
  match v with
  | Ok Found => run = (c, t, f0, Ok DRX8)
  | Ok GaveUp => run = (c, t, f0, Raise RuntimeError)
  | _ => True
  end.
Proof. intros p v H1 H2. unfold run, try_modes. rewrite H1, H2. destruct v as [[]|]; auto; rewrite seek0_ok by lia; reflexivity. Qed.
Lemma chain3 : forall p, drx f0 = (f0, Ok NextMode) -> drx8 f0 = (f0, Ok NextMode) -> drspec f0 = (mkFile data p, Ok Found) -> run = (c, t, f0, Ok DRSpec).
Proof. intros p H1 H2 H3. unfold run, try_modes. rewrite H1, H2, H3. rewrite seek0_ok by lia; reflexivity. Qed.
Lemma chain4 : forall p t' v, drx f0 = (f0, Ok NextMode) -> drx8 f0 = (f0, Ok NextMode) -> drspec f0 = (f0, Ok NextMode) -> tbx t f0 = (t', mkFile data p, v) ->
  match v with
  | Ok Found => run = (c, t', f0, Ok TBX)
  | Raise e => run = (c, t', mkFile data p, Raise e)
  | _ => True
  end.
Proof. intros p t' v H1 H2 H3 H4. unfold run, try_modes. rewrite H1, H2, H3, H4. destruct v as [[]|]; auto; rewrite seek0_ok by lia; reflexivity. Qed.
Lemma chain5 : forall p t' c', drx f0 = (f0, Ok NextMode) -> drx8 f0 = (f0, Ok NextMode) -> drspec f0 = (f0, Ok NextMode) -> tbx t f0 = (t', f0, Ok NextMode) ->
  cor c f0 = (c', mkFile data p, Ok Found) -> run = (c', t', f0, Ok COR).
Proof. intros p t' c' H1 H2 H3 H4 H5. unfold run, try_modes. rewrite H1, H2, H3, H4, H5. rewrite seek0_ok by lia; reflexivity. Qed.

(** What each turn guarantees, and what the chain then does. *)
Context (PD PD8 PS PT PC : Prop) (IT : tcache -> Prop) (IC : ccache -> Prop).
Definition outcome (P : Prop) (v : res verdict) (f : file) : Prop :=
  f_data f = data /\ 0 <= f_pos f /\ match v with Ok Found => P | Ok NextMode => f_pos f = 0 | Ok GaveUp => True | Raise e => e = OSError end.
Lemma rewound : forall f, f_data f = data -> fst (f_seek 0 0 f) = f0.
Proof. intros [d p] E. cbn [f_data] in E. subst d. rewrite seek0_ok by lia. reflexivity. Qed.
Lemma next_same : forall P f, outcome P (Ok NextMode) f -> f = f0.
Proof. intros P [d p] (E & _ & E2). cbn [f_data f_pos] in *. unfold f0. congruence. Qed.
Context (H1 : forall f v, drx f0 = (f, v) -> outcome PD v f) (H2 : forall f v, drx8 f0 = (f, v) -> outcome PD8 v f) (H3 : forall f v, drspec f0 = (f, v) -> outcome PS v f)
        (H4 : forall t t' f v, IT t -> tbx t f0 = (t', f, v) -> outcome PT v f /\ IT t') (H5 : forall c c' f v, IC c -> cor c f0 = (c', f, v) -> outcome PC v f /\ IC c').
Lemma chain_all : IT t -> IC c -> forall c' t' f' r, run = (c', t', f', r) ->
  IC c' /\ IT t' /\ f_data f' = data /\ ((exists m, r = Ok m) \/ r = Raise RuntimeError -> f_pos f' = 0) /\
  match r with
  | Ok DRX => PD | Ok DRX8 => PD8 | Ok DRSpec => PS | Ok TBX => PT | Ok COR => PC
  | Raise e => e = RuntimeError \/ e = OSError
  end.
Proof.
  intros HT HC c' t' f' r H. unfold run, try_modes in H. cbv zeta in H.
  destruct (drx f0) as [f v] eqn:E1. pose proof (H1 _ _ eq_refl) as K1. pose proof K1 as (D & _ & O).
  destruct v as [[]|e].
  - rewrite (rewound f D) in H. injection H as <- <- <- <-. unfold f0. cbn [f_data f_pos]. split; [auto|]. split; [auto|]. split; [auto|]. split; auto.
  - rewrite (rewound f D) in H. injection H as <- <- <- <-. unfold f0. cbn [f_data f_pos]. split; [auto|]. split; [auto|]. split; [auto|]. split; auto.
  - apply next_same in K1. subst f. clear D O.
    destruct (drx8 f0) as [f v] eqn:E2. pose proof (H2 _ _ eq_refl) as K2. pose proof K2 as (D & _ & O).
    destruct v as [[]|e].
    + rewrite (rewound f D) in H. injection H as <- <- <- <-. unfold f0. cbn [f_data f_pos]. split; [auto|]. split; [auto|]. split; [auto|]. split; auto.
    + rewrite (rewound f D) in H. injection H as <- <- <- <-. unfold f0. cbn [f_data f_pos]. split; [auto|]. split; [auto|]. split; [auto|]. split; auto.
    + apply next_same in K2. subst f. clear D O.
      destruct (drspec f0) as [f v] eqn:E3. pose proof (H3 _ _ eq_refl) as K3. pose proof K3 as (D & _ & O).
      destruct v as [[]|e].
      * rewrite (rewound f D) in H. injection H as <- <- <- <-. unfold f0. cbn [f_data f_pos]. split; [auto|]. split; [auto|]. split; [auto|]. split; auto.
      * rewrite (rewound f D) in H. injection H as <- <- <- <-. unfold f0. cbn [f_data f_pos]. split; [auto|]. split; [auto|]. split; [auto|]. split; auto.
      * apply next_same in K3. subst f. clear D O.
        destruct (tbx t f0) as [[t1 f] v] eqn:E4. destruct (H4 _ _ _ _ HT E4) as [O4 T1]. pose proof O4 as (D & _ & O).
        destruct v as [[]|e].
        -- rewrite (rewound f D) in H. injection H as <- <- <- <-. unfold f0. cbn [f_data f_pos]. split; [auto|]. split; [auto|]. split; [auto|]. split; auto.
        -- rewrite (rewound f D) in H. injection H as <- <- <- <-. unfold f0. cbn [f_data f_pos]. split; [auto|]. split; [auto|]. split; [auto|]. split; auto.
        -- apply next_same in O4. subst f. clear D O.
           destruct (cor c f0) as [[c1 f] v] eqn:E5. destruct (H5 _ _ _ _ HC E5) as [O5 C1]. pose proof O5 as (D & _ & O).
           destruct v as [[]|e]; try (rewrite (rewound f D) in H; injection H as <- <- <- <-; unfold f0; cbn [f_data f_pos]; split; [auto|]; split; [auto|]; split; [auto|]; split; auto).
           injection H as <- <- <- <-. split; [auto|]. split; [auto|]. split; [auto|]. split; [|auto]. intros [[m X]|X]; [discriminate X|]. rewrite O in X. discriminate X.
        -- injection H as <- <- <- <-. split; [auto|]. split; [auto|]. split; [auto|]. split; [|auto]. intros [[m X]|X]; [discriminate X|]. rewrite O in X. discriminate X.
      * injection H as <- <- <- <-. split; [auto|]. split; [auto|]. split; [auto|]. split; [|auto]. intros [[m X]|X]; [discriminate X|]. rewrite O in X. discriminate X.
    + injection H as <- <- <- <-. split; [auto|]. split; [auto|]. split; [auto|]. split; [|auto]. intros [[m X]|X]; [discriminate X|]. rewrite O in X. discriminate X.
  - injection H as <- <- <- <-. split; [auto|]. split; [auto|]. split; [auto|]. split; [|auto]. intros [[m X]|X]; [discriminate X|]. rewrite O in X. discriminate X.
Qed.
End Chain.

(** ** The turns for DRX, DRX8 and DR spectrometer data *)
Lemma gen_outcome : forall size fill data, 32 < size < 1000000 -> bytes_ok data -> forall f v,
  (snd (fst (probe (plain (read_frame_gen size fill)) size tt (mkFile data 0))), snd (probe (plain (read_frame_gen size fill)) size tt (mkFile data 0))) = (f, v) ->
  outcome data (exists i, 0 <= i < size /\ i + 2 * size <= zlen data /\ sync_at data i /\ sync_at data (i + size)) v f.
Proof.
  intros size fill data SZ B f v H. destruct (hit_or_not size SZ data) as [N|[i HI]].
  - rewrite (probe_none size fill SZ data B N) in H. injection H as <- <-. repeat split; cbn [f_data f_pos]; lia.
  - pose proof HI as (A1 & A2 & A3 & A4). destruct (probe_hit size fill SZ data B i HI) as (G1 & G2 & G3).
    destruct (Z.lt_ge_cases (zlen data) (i + 2 * size)) as [L|L].
    + destruct (G1 L) as (q & Hq & E). rewrite E in H. injection H as <- <-. repeat split; cbn [f_data f_pos]; auto.
    + destruct (sync_dec data (i + size)) as [Y|NY].
      * rewrite (G2 L Y) in H. pose proof (f_equal fst H) as F1. pose proof (f_equal snd H) as F2. cbn [fst snd] in F1, F2. subst f v. split; [auto|]. split; [cbn [f_pos]; lia|]. exists i. auto.
      * rewrite (G3 L NY) in H. injection H as <- <-. repeat split; cbn [f_data f_pos]; lia.
Qed.
Lemma plain_drspec_at : forall data (st : unit) p st' f' r, bytes_ok data -> 0 <= p -> plain read_drspec st (mkFile data p) = (st', f', r) ->
  f_data f' = data /\ True /\ 0 <= f_pos f' /\ match r with Got _ => header_at data p | BadSync _ => f' = mkFile data p | AtEOF => True end.
Proof.
  intros data st p st' f' r B Hp H. unfold plain in H. destruct (read_drspec (mkFile data p)) as [f1 r1] eqn:E. injection H as _ <- <-.
  destruct (drs_rest _ _ _ _ Hp E) as [D P]. split; [auto|]. split; [auto|]. split; [auto|]. destruct r1 as [s| |l]; auto.
  - destruct (drs_got _ _ _ _ B Hp E); auto.
  - unfold read_drspec in E. destruct (f_read 76 (mkFile data p)) as [f2 d2] eqn:E2.
    destruct (f_read_keeps _ _ _ _ E2) as [D2 P2]. cbn [f_data f_pos] in D2, P2.
    destruct (Z.eqb_spec (zlen d2) 76) as [L|L]; cbn [negb] in E; [|discriminate E].
    destruct (negb _) in E.
    + injection E as <- _. destruct f2 as [dd pp]. cbn [f_data f_pos] in *. rewrite seek1_ok by lia. cbn [fst]. f_equal; [auto|lia].
    + destruct (f_read _ f2) as [f3 d3] in E. destruct (negb _) in E; discriminate E.
Qed.
Lemma drspec_outcome : forall data, bytes_ok data -> forall f v,
  (snd (fst (probe_drspec tt (mkFile data 0))), snd (probe_drspec tt (mkFile data 0))) = (f, v) -> outcome data (header_at data 0) v f.
Proof.
  intros data B f v H.
  assert (HD : header_at data 0 \/ ~ header_at data 0).
  { unfold header_at. destruct (list_eq_dec Z.eq_dec (slice 0 4 data) [222; 192; 222; 192]); [|tauto].
    destruct (list_eq_dec Z.eq_dec (slice (0 + 72) 4 data) [12; 237; 12; 237]); tauto. }
  destruct HD as [Y|N].
  - rewrite probe_sized_eq in H. unfold drs_frame_size in H. destruct (read_drspec (mkFile data 0)) as [f1 r1] eqn:E.
    destruct (drs_rest _ _ _ _ (Z.le_refl 0) E) as [D P]. destruct f1 as [dd pp]. cbn [f_data f_pos] in D, P. subst dd.
    cbn [f_tell f_pos] in H. rewrite seek0_ok in H by lia. cbn [fst] in H.
    assert (G : forall mfs, outcome data (header_at data 0) (snd (probe (plain read_drspec) mfs tt (mkFile data 0))) (snd (fst (probe (plain read_drspec) mfs tt (mkFile data 0))))).
    { intro mfs. destruct (probe (plain read_drspec) mfs tt (mkFile data 0)) as [[u f2] v2] eqn:E2. cbn [fst snd].
      destruct (probe_keeps (plain read_drspec) (fun _ => true) (fun _ => True) data (header_at data) (fun st p st' f' r _ Hp X => plain_drspec_at data st p st' f' r B Hp X) mfs tt u f2 v2 I E2) as (_ & A1 & A2 & A3).
      split; [auto|]. split; [auto|]. exact A3. }
    destruct r1 as [s| |l]; cbv iota beta zeta in H; pose proof (f_equal fst H) as F1; pose proof (f_equal snd H) as F2; cbn [fst snd] in F1, F2; subst f v; apply G.
  - rewrite (probe_drspec_not data B N) in H. injection H as <- <-. repeat split; cbn [f_data f_pos]; lia.
Qed.
