(** The numbers and names of the stands, and the table of sources. *)
From Coq Require Import String.
From Coq Require Import List ZArith QArith Qabs Sorted Permutation Bool Lia Lqa.
From Verif Require Import M_Idi S_Idi P_Base P_Str P_Vis P_Vis2 P_Idi P_Idi2 P_Idi3.
Import ListNotations.
Open Scope Z_scope.

Definition some_kind (k : kind) : Prop := k = Idi \/ k = Aips \/ k = ExtendedIdi.
Lemma plain_some : forall k mode, plain_mode k mode -> some_kind k.
Proof. unfold plain_mode, some_kind. intuition. Qed.

(** ** Names *)
Lemma name_check : forallb (fun s => forallb (fun k => match stand_of_name (clip 8 (get_name k s)) with Some t => t =? s | None => false end) [Idi; Aips; ExtendedIdi]) (range 0 1000) = true.
Proof. vm_compute. reflexivity. Qed.
Lemma name_ok : forall k s, some_kind k -> 0 <= s <= 999 -> stand_of_name (clip 8 (get_name k s)) = Some s.
Proof.
  intros k s Hk Hs. pose proof name_check as H. rewrite forallb_forall in H.
  assert (I : In s (range 0 1000)) by (apply range_in; lia). specialize (H s I). rewrite forallb_forall in H.
  assert (Ik : In k [Idi; Aips; ExtendedIdi]) by (destruct Hk as [-> | [-> | ->]]; simpl; auto).
  specialize (H k Ik). destruct (stand_of_name (clip 8 (get_name k s))) as [t|]; [|discriminate]. apply Z.eqb_eq in H. congruence.
Qed.
Lemma names_ok : forall A (f : A -> Z) k l, some_kind k -> Forall (fun s => 0 <= s <= 999) (map f l) ->
  all_stands (map (fun a => clip 8 (get_name k (f a))) l) = Some (map f l).
Proof.
  intros A f k l Hk. induction l as [|a l IH]; intro F; [reflexivity|]. cbn [map all_stands] in *. inversion F; subst. rewrite name_ok, IH; auto.
Qed.

Lemma starts_prefix : forall p s, starts_with p s = String.prefix p s.
Proof.
  intros p s. unfold starts_with. destruct (String.prefix p s) eqn:K.
  - apply String.prefix_correct in K. rewrite K. apply String.eqb_refl.
  - destruct (String.eqb_spec (substring 0 (String.length p) s) p) as [C|C]; auto. apply String.prefix_correct in C. congruence.
Qed.
Lemma extended_ok : forall k mode, plain_mode k mode ->
  starts_with "EXTENDED-" (lwatype k ++ mode) || starts_with "IDI-EXTENDED-" (lwatype k ++ mode) = (bit_shift k =? 16).
Proof.
  intros k mode [-> | [-> | (-> & H1 & H2)]].
  - rewrite !starts_prefix. reflexivity.
  - rewrite !starts_prefix. simpl. destruct mode; reflexivity.
  - rewrite !starts_prefix. change (lwatype Idi ++ mode)%string with mode. rewrite H1, H2. reflexivity.
Qed.

(** ** Numbers *)
Section Numbers.
Context {X : Type}.
Variables (k : kind) (antennas : list (Z * X)).
Hypothesis Hk : some_kind k.
Let stands := map fst antennas.
Hypothesis Hs : numbered k stands.
Let en := max_ants k <? fold_right Z.max 0 stands.
Definition num (s : Z) : Z := if en then match list_index Z.eqb s stands with Ok j => j + 1 | Raise _ => 0 end else s.

Lemma build_skip : forall e l i m s, ~ In s l -> dget (build_mapper e i l m) s = dget m s.
Proof.
  induction l as [|x l IH]; intros i m s N; simpl; auto. rewrite IH by (intro I; apply N; right; auto).
  rewrite dget_dset. destruct (Z.eqb_spec x s); auto. exfalso. apply N. left. auto.
Qed.
Lemma build_get : forall e l i m j s, NoDup l -> nth_error l j = Some s ->
  dget (build_mapper e i l m) s = Ok (if e then i + Z.of_nat j + 1 else s).
Proof.
  induction l as [|x l IH]; intros i m j s N H; [destruct j; discriminate|]. inversion N as [|? ? N1 N2]; subst.
  destruct j as [|j]; cbn [nth_error] in H; cbn [build_mapper].
  - injection H as ->. rewrite build_skip by auto. rewrite dget_dset, Z.eqb_refl. destruct e; apply f_equal; lia.
  - rewrite (IH (i + 1) _ j s) by auto. destruct e; apply f_equal; lia.
Qed.
Lemma num_get : forall s, In s stands -> dget (build_mapper en 0 stands []) s = Ok (num s).
Proof.
  intros s I. destruct Hs as (_ & N & _). destruct (In_nth_error _ _ I) as (j & Hj).
  rewrite (build_get en stands 0 [] j s) by auto. unfold num. rewrite (list_index_nth stands j s) by auto. destruct en; apply f_equal; lia.
Qed.
Lemma max_below : forall l, Forall (fun s => s <= fold_right Z.max 0 l) l.
Proof. induction l as [|x l IH]; simpl; constructor; [lia|]. eapply Forall_impl; [|apply IH]. intros; simpl in *; lia. Qed.
Lemma kind_max : max_ants k < 2 ^ bit_shift k /\ 0 <= bit_shift k.
Proof. clear Hs. destruct Hk as [-> | [-> | ->]]; simpl; lia. Qed.
Lemma num_range : forall s, In s stands -> 0 <= num s < 2 ^ bit_shift k.
Proof.
  intros s I. destruct Hs as (_ & N & F & L). pose proof kind_max as [M _]. unfold num. destruct en eqn:K.
  - destruct (In_nth_error _ _ I) as (j & Hj). rewrite (list_index_nth stands j s) by auto.
    assert ((j < length stands)%nat) by (apply nth_error_Some; congruence). unfold zlen in L. lia.
  - unfold en in K. apply Z.ltb_ge in K. pose proof (max_below stands) as B. rewrite Forall_forall in B, F. specialize (B s I). specialize (F s I). lia.
Qed.
Lemma num_inj : forall s t, In s stands -> In t stands -> num s = num t -> s = t.
Proof.
  intros s t Is It. destruct Hs as (_ & N & _). unfold num. destruct en; auto.
  destruct (In_nth_error _ _ Is) as (i & Hi). destruct (In_nth_error _ _ It) as (j & Hj).
  rewrite (list_index_nth stands i s), (list_index_nth stands j t) by auto. intro C. assert (i = j) by lia. congruence.
Qed.

Definition ag_of : list (str * X * Z) := map (fun a => (clip 8 (get_name k (fst a)), snd a, num (fst a))) antennas.
Definition map_of : option (list (str * Z * Z)) := if en then Some (map (fun a => (clip 8 (get_name k (fst a)), num (fst a), fst a)) antennas) else None.
Lemma write_geometry_ok : write_geometry k (mkG antennas (build_mapper en 0 stands []) en) = Ok (ag_of, map_of).
Proof.
  unfold write_geometry. cbn [g_ants g_map g_enable].
  assert (G : forall B (f : Z * X -> Z -> B), collect (map (fun a => bind (dget (build_mapper en 0 stands []) (fst a)) (fun n => Ok (f a n))) antennas) = Ok (map (fun a => f a (num (fst a))) antennas)).
  { intros B f. apply P_Base.collect_ok. intros a I. rewrite num_get by (apply in_map; auto). reflexivity. }
  rewrite (G _ (fun a n => (clip 8 (get_name k (fst a)), snd a, n))). cbn [bind].
  unfold map_of. destruct en eqn:K; auto.
  rewrite (G _ (fun a n => (clip 8 (get_name k (fst a)), n, fst a))). reflexivity.
Qed.
Lemma fold_left_map : forall A B C (f : A -> B -> A) (g : C -> B) l a, fold_left f (map g l) a = fold_left (fun x c => f x (g c)) l a.
Proof. induction l; intros; simpl; auto. Qed.
Lemma mapped_ok : forall s, In s stands -> mapped (read_array_mapper map_of) s = Ok (num s).
Proof.
  intros s I. unfold map_of. destruct en eqn:K; cbn [read_array_mapper mapped].
  - rewrite fold_left_map. cbn [fst snd]. 
    rewrite <- (fold_left_map _ _ _ (fun d (p : Z * Z) => dset d (fst p) (snd p)) (fun c : Z * X => (fst c, num (fst c)))).
    apply fold_dset_in.
    + rewrite map_map. cbn [fst]. destruct Hs as (_ & N & _). auto.
    + apply in_map_iff in I. destruct I as (a & <- & I). apply in_map_iff. exists a. auto.
  - unfold num. rewrite K. auto.
Qed.

(** What the reader makes of the tables *)
Definition nosta_of : list Z := map num stands.
Lemma nosta_nodup : NoDup nosta_of.
Proof.
  destruct Hs as (_ & N & _). unfold nosta_of. assert (G : forall l, incl l stands -> NoDup l -> NoDup (map num l)).
  { induction l as [|x l IH]; intros Hi Hn; simpl; constructor; inversion Hn; subst.
    - intro I. apply in_map_iff in I. destruct I as (y & Ey & Iy). apply num_inj in Ey; [congruence| |]; apply Hi; simpl; auto.
    - apply IH; auto. intros y Iy. apply Hi. right. auto. }
  apply G; auto. apply incl_refl.
Qed.
Lemma combine_map : forall A B C (f : A -> B) (g : A -> C) l, combine (map f l) (map g l) = map (fun a => (f a, g a)) l.
Proof. induction l; simpl; congruence. Qed.

Context {V W U P : Type}.
Lemma open_ok : forall ty src bands ref nchan nstk stk1 cd uv,
  let f := mkF ty ag_of map_of src bands ref nchan nstk stk1 cd uv : fits V W U P X in
  let r := open_idi f in
  r_stands r = stands /\ r_ants r = antennas /\ r_map r = fold_left (fun d p => dset d (fst p) (snd p)) (combine nosta_of stands) [].
Proof.
  intros ty src bands ref nchan nstk stk1 cd uv f r. destruct Hs as (_ & N & F & _).
  assert (Nm : (match f_map f with
    | Some m => (map (fun r => snd (fst r)) m, map snd m, map (fun r => fst (fst r)) m)
    | None => (map snd (f_ag f), map snd (f_ag f), map (fun r => fst (fst r)) (f_ag f))
    end) = (nosta_of, if en then stands else nosta_of, map (fun a => clip 8 (get_name k (fst a))) antennas)).
  { unfold f. cbn [f_map f_ag]. unfold map_of, ag_of, nosta_of, stands. destruct en; rewrite !map_map; cbn [fst snd]; reflexivity. }
  unfold r, open_idi. rewrite Nm. rewrite (names_ok _ fst) by auto. fold stands. cbn [r_stands r_ants r_map].
  assert (Sc : map snd (combine nosta_of stands) = stands).
  { unfold nosta_of. rewrite <- (map_id stands) at 2. rewrite combine_map, map_map. cbn [snd]. apply map_id. }
  rewrite Sc. split; auto. split; auto.
  assert (Za : zip_with (fun (r : str * X * Z) (act : Z) => (act, snd (fst r))) ag_of stands = antennas).
  { unfold ag_of, stands. rewrite zip_with_map. cbn [fst snd]. rewrite <- (map_id antennas) at 2. apply map_ext. intros [a b]. auto. }
  change (f_ag f) with ag_of. rewrite Za. clear - N. unfold stands in *.
  assert (G : forall l, incl l antennas -> flat_map (fun s => match find (fun a : Z * X => fst a =? s) antennas with Some a => [a] | None => [] end) (map fst l) = l).
  { induction l as [|a l IH]; intro Hi; simpl; auto.
    assert (Fa : find (fun b : Z * X => fst b =? fst a) antennas = Some a).
    { assert (Ia : In a antennas) by (apply Hi; left; auto). clear - N Ia.
      induction antennas as [|b ants IH]; [destruct Ia|]. simpl in N. inversion N as [|? ? N1 N2]; subst. simpl.
      destruct (Z.eqb_spec (fst b) (fst a)) as [C|C].
      - destruct Ia as [->|Ia]; auto. exfalso. apply N1. rewrite C. apply in_map. auto.
      - destruct Ia as [->|Ia]; [congruence|auto]. }
    rewrite Fa. simpl. f_equal. apply IH. intros x Ix. apply Hi. right. auto. }
  apply G. apply incl_refl.
Qed.
Lemma map_get : forall s, In s stands -> dget (fold_left (fun d p => dset d (fst p) (snd p)) (combine nosta_of stands) []) (num s) = Ok s.
Proof.
  intros s I. assert (C : combine nosta_of stands = map (fun s => (num s, s)) stands).
  { unfold nosta_of. rewrite <- (map_id stands) at 2. apply combine_map. }
  rewrite C. apply fold_dset_in.
  - rewrite map_map. cbn [fst]. apply nosta_nodup.
  - apply in_map_iff. exists s. auto.
Qed.
End Numbers.

(** ** Sources *)
Section Sources.
Context {V W U P : Type} (E : sky V W U P).
Notation integration := (@integration V W P).
Variable codes : list Z.
Let n := length codes.
Hypothesis Hcodes : NoDup codes.
Hypothesis Hn : (0 < n)%nat.
Lemma str_eqb_iff : forall x y, str_eqb x y = true <-> x = y.
Proof. intros x y. destruct (str_eqb_spec x y); split; congruence. Qed.

Definition add_source (tbl : list (str * P)) (i : integration) : list (str * P) :=
  if existsb (fun r => str_eqb (fst r) (curr_name (i_source i))) tbl then tbl else tbl ++ [center_of E i].
Lemma table_app_src : forall stk0 a b tbl, source_table E stk0 (a ++ b : list (dataset V W P)) tbl = source_table E stk0 b (source_table E stk0 a tbl).
Proof. induction a as [|d a IH]; intros b tbl; simpl; auto. Qed.
Lemma table_one : forall i tbl, source_table E (nth 0 codes 0) (map (ds codes i) (seq 0 n)) tbl = add_source tbl i.
Proof.
  intros i tbl.
  assert (G : forall p q t, (0 < p)%nat -> (p + q <= n)%nat -> source_table E (nth 0 codes 0) (map (ds codes i) (seq p q)) t = t).
  { intros p q. revert p. induction q as [|q IH]; intros p t Hp Hq; simpl; auto.
    destruct (Z.eqb_spec (nth p codes 0) (nth 0 codes 0)) as [C|C].
    - exfalso. assert (p = 0)%nat by (apply (proj1 (NoDup_nth codes 0) Hcodes); fold n; auto; lia). lia.
    - simpl. apply IH; lia. }
  subst n. destruct (length codes) as [|n']; [lia|]. simpl. rewrite Z.eqb_refl. cbn [andb].
  etransitivity; [apply G; lia|]. unfold add_source. destruct (existsb _ tbl); auto.
Qed.
Lemma table_all : forall l tbl, source_table E (nth 0 codes 0) (flat_map (fun i => map (ds codes i) (seq 0 n)) l) tbl = fold_left add_source l tbl.
Proof. induction l as [|i l IH]; intro tbl; simpl; auto. rewrite table_app_src, table_one. apply IH. Qed.

Lemma sources_ok : forall l (tbl : list (str * P)), (forall i, In i l -> fst (center_of E i) <> [122]) -> ~ In [122] (map fst tbl) ->
  let t := fold_left add_source l tbl in
  incl tbl t /\ (forall i, In i l -> In (fst (center_of E i)) (map fst t)) /\ (forall e, In e t -> In e tbl \/ exists j, In j l /\ e = center_of E j).
Proof.
  induction l as [|i l IH]; intros tbl Hz Ht; simpl.
  - split; [apply incl_refl|]. split; [tauto|auto].
  - assert (A : incl tbl (add_source tbl i) /\ In (fst (center_of E i)) (map fst (add_source tbl i)) /\ forall e, In e (add_source tbl i) -> In e tbl \/ e = center_of E i).
    { unfold add_source. destruct (existsb (fun r : str * P => str_eqb (fst r) (curr_name (i_source i))) tbl) eqn:K.
      - split; [apply incl_refl|]. split; auto. apply existsb_exists in K. destruct K as (e & I & K). apply str_eqb_iff in K.
        apply in_map_iff. exists e. split; auto. rewrite K. unfold center_of. cbn [fst]. destruct (i_source i) as [|nm ps]; simpl in *; auto.
        exfalso. apply Ht. apply in_map_iff. exists e. auto.
      - split; [apply incl_appl, incl_refl|]. split; [rewrite map_app; apply in_or_app; right; left; auto|].
        intros e I. apply in_app_or in I. destruct I as [I|[I|[]]]; auto. }
    destruct A as (A1 & A2 & A3). destruct (IH (add_source tbl i)) as (B1 & B2 & B3).
    + intros j Ij. apply Hz. right. auto.
    + intro I. apply in_map_iff in I. destruct I as (e & Ee & Ie). destruct (A3 e Ie) as [K| ->].
      * apply Ht. apply in_map_iff. exists e. auto.
      * apply (Hz i); auto. left. auto.
    + split; [eapply incl_tran; eauto|]. split.
      * intros j [<-|Ij]; [|apply B2; auto]. apply in_map_iff in A2. destruct A2 as (e & Ee & Ie). apply in_map_iff. exists e. split; auto.
      * intros e Ie. destruct (B3 e Ie) as [K|(j & Ij & ->)]; [|right; exists j; auto].
        destruct (A3 e K) as [K'| ->]; auto. right. exists i. auto.
Qed.
End Sources.
