From Coq Require Import List ZArith Bool Lia.
From Verif Require Import LibList M_Py M_Str M_Tele S_Tele P_Tele P_TeleUp.
Import ListNotations.
Open Scope Z_scope.

(** C98: while telemetry stays on and no two logs fall into the same second, nothing that was called is forgotten and nothing is counted twice, whether or not writing works: for every name of the library, the number of
    calls, of timed calls and their time in the logs and in memory together grow by exactly those of the program. *)
Lemma C98_counts_partial_proof : forall (readonly enabled : bool) (max_entries pid : Z) (files : list (Z * Z * content)) (l : list op) (n : str),
  let s0 := start readonly enabled max_entries pid files in let s := run l s0 in
  t_active s0 = true -> stays_on l -> no_clash l s0 -> ours n ->
  logged i_total n (t_files s) + said i_total n (t_cache s) = logged i_total n files + counted (fun _ => 1) n l /\
  logged i_timed n (t_files s) + said i_timed n (t_cache s) = logged i_timed n files + counted (fun t => if 0 <? t then 1 else 0) n l /\
  logged i_time n (t_files s) + said i_time n (t_cache s) = logged i_time n files + counted (fun t => t) n l.
Proof.
  intros readonly enabled max_entries pid files l n s0 s A S C O. assert (SO : sound s0) by (split; cbn; [constructor|reflexivity]).
  assert (G : forall f g, measures f g -> holds f n s = holds f n s0 + counted g n l) by (intros f g M; apply run_holds; assumption).
  assert (H0 : forall f, holds f n s0 = logged f n files) by (intro f; unfold holds; cbn; lia). repeat split.
  - pose proof (G i_total (fun _ => 1)) as Q. rewrite H0 in Q. apply Q. split; [reflexivity|]. intros i t. reflexivity.
  - pose proof (G i_timed (fun t => if 0 <? t then 1 else 0)) as Q. rewrite H0 in Q. apply Q. split; reflexivity.
  - pose proof (G i_time (fun t => t)) as Q. rewrite H0 in Q. apply Q. split; reflexivity.
Qed.
Definition name_a : str := [108; 115; 108; 97].
Definition name_b : str := [108; 115; 108; 98].
Definition program : list op := [Track name_a 5 10 Good; Track name_b 0 11 NoOpen; Track name_a 7 12 Cut; Write 13 Good; Track name_a 1 14 Good].
Lemma C98_counts_example_proof : stays_on program /\ no_clash program (start false true 2 1 []) /\ ours name_a /\ t_files (run program (start false true 2 1 [])) = [((12, 1), Half); ((13, 1), Full [(name_a, mkI 2 2 12); (name_b, mkI 1 0 0)])].
Proof.
  split; [|split; [|split; [exists [97]; reflexivity|reflexivity]]].
  - repeat split; cbn; intuition discriminate.
  - vm_compute. repeat split; intuition (try discriminate).
Qed.
(** C98: the table in memory stays below the limit as long as writing works. *)
Lemma C98_bounded_proof : forall (readonly enabled : bool) (max_entries pid : Z) (files : list (Z * Z * content)) (l : list op), 0 < max_entries -> (forall o, In o l -> disk_of o = Good) ->
  Z.of_nat (length (t_cache (run l (start readonly enabled max_entries pid files)))) < max_entries.
Proof.
  intros readonly enabled max_entries pid files l MP. set (s0 := start readonly enabled max_entries pid files).
  assert (B0 : sound s0 /\ t_max s0 = max_entries /\ t_count s0 < max_entries) by (split; [split; cbn; [constructor|reflexivity]|cbn; auto]). clearbody s0. revert s0 B0.
  induction l as [|o l IH]; intros s [S [M B]] D; [cbn; rewrite <- (proj2 S); exact B|]. rewrite run_cons. apply IH; [|intros o' I; apply D; right; exact I]. split; [apply step_sound, S|].
  assert (DG : disk_of o = Good) by (apply D; left; reflexivity). destruct o as [n t now d|now d| | | |]; cbn [step disk_of] in *; try (split; [exact M|exact B]); subst.
  - unfold track. destruct (_ || _) eqn:T; [auto|]. cbn [snd]. fold (noted n t s). destruct (noted_sound n t s S) as [S1 [_ [_ [AE [_ [ME [PC _]]]]]]]. destruct (Z.leb_spec (t_max s) (t_count (noted n t s))) as [L|L]; [|rewrite ME; split; [reflexivity|exact L]].
    destruct (write_keeps now Good (noted n t s)) as [_ [_ [_ [MK _]]]]. rewrite MK, ME. split; [reflexivity|]. unfold write. apply orb_false_iff in T. destruct T as [_ T]. apply negb_false_iff in T. rewrite AE, T. cbn [andb].
    destruct (Z.ltb_spec 0 (t_count (noted n t s))); cbn; lia.
  - destruct (write_keeps now Good s) as [_ [_ [_ [MK _]]]]. rewrite MK. split; [reflexivity|]. unfold write. destruct (_ && _); cbn; lia.
  - cbn. auto.
Qed.
Lemma C98_bounded_example_proof : length (t_cache (run [Track name_a 1 5 Good; Track name_b 1 5 Good; Track name_a 1 6 Good] (start false true 3 1 []))) = 2%nat.
Proof. reflexivity. Qed.
(** C98: once switched off for good telemetry stays off: in all later sessions, whatever the programs do short of enable(), no log is written or changed and no upload is started. *)
Lemma C98_off_proof : forall (ss : list (bool * Z * Z * list op * Z * disk)) (files : list (Z * Z * content)) (sends : Z),
  (forall r m p l now d, In (r, m, p, l, now, d) ss -> ~ In Enable l) ->
  fold_left (fun w x => let '(r, m, p, l, now, d) := x in session r m p l now d w) ss (false, files, sends) = (false, files, sends).
Proof.
  induction ss as [|[[[[[r m] p] l] now] d] ss IH]; intros files sends NE; [reflexivity|]. cbn [fold_left].
  assert (E : session r m p l now d (false, files, sends) = (false, files, sends)).
  { unfold session. destruct (run_off l (NE r m p l now d (or_introl eq_refl)) (start r false m p files)) as [[A E] [F N]]; [split; cbn; [destruct r|]; reflexivity|].
    set (s := run l (start r false m p files)) in *. assert (F0 : t_files s = files) by (rewrite F; reflexivity). assert (N0 : t_sends s = 0) by (rewrite N; cbn; destruct r; reflexivity).
    destruct r; [rewrite E, F0, N0, Z.add_0_r; reflexivity|]. unfold write. rewrite A. cbn. rewrite E, F0, N0, Z.add_0_r. reflexivity. }
  rewrite E. apply IH. intros r' m' p' l' now' d' I. apply (NE r' m' p' l' now' d'). right. exact I.
Qed.
Lemma C98_off_example_proof : session false 100 7 [Track name_a 1 5 Good; Disable; Track name_b 1 6 Good] 9 Good (true, [], 0) = (false, [], 1) /\ session false 100 8 [Track name_a 1 5 Good] 9 Good (false, [], 1) = (false, [], 1).
Proof. split; reflexivity. Qed.
(** C98: a program that switches telemetry off loses what was counted before in the same session and was not yet written. *)
Lemma C98_disable_drops_proof : forall (s : client) (now : Z) (d : disk), snd (write now d (disable s)) = clear (disable s).
Proof. intros s now d. reflexivity. Qed.
Lemma C98_disable_drops_example_proof : t_cache (run [Track name_a 1 5 Good] (start false true 100 7 [])) <> [] /\ t_files (run [Track name_a 1 5 Good; Disable; Write 9 Good] (start false true 100 7 [])) = [].
Proof. split; [discriminate|reflexivity]. Qed.
(** C98, finding: ignore() does not switch telemetry off.  It leaves the setting as it was and makes the client do what the setting says: telemetry that is on stays on, and where the directory
    cannot be written it is even switched on. *)
Lemma C98_ignore_refuted_proof : forall (s : client), t_enabled s = true -> t_active (ignore s) = true /\ t_enabled (ignore s) = true /\
  (forall n timing now d, ours n -> fst (track n timing now d (ignore s)) = true).
Proof.
  intros s E. assert (A : t_active (ignore s) = true) by exact E. split; [exact A|]. split; [exact E|]. intros n timing now d T. apply (proj2 (tag_iff n)) in T. unfold track. rewrite T, A. reflexivity.
Qed.
Lemma C98_ignore_example_proof : t_active (start true true 100 7 []) = false /\ t_active (ignore (start true true 100 7 [])) = true /\ t_files (run [Ignore; Track name_a 1 5 Good; Write 9 Good] (start false true 100 7 [])) = [((9, 7), Full [(name_a, mkI 1 1 1)])].
Proof. repeat split. Qed.
(** C98, finding: two logs written by a process within one second have the same name, and the first is lost. *)
Lemma C98_clash_refuted_proof : exists l s0, t_active s0 = true /\ stays_on l /\ ours name_a /\ (forall o, In o l -> disk_of o = Good) /\ counted (fun _ => 1) name_a l = 1 /\
  logged i_total name_a (t_files (run l s0)) + said i_total name_a (t_cache (run l s0)) = 0.
Proof.
  exists [Track name_a 1 5 Good; Track name_b 1 5 Good], (start false true 1 7 []). repeat split; try (cbn; intuition discriminate); try (exists [97]; reflexivity). intros o [<-|[<-|[]]]; reflexivity.
Qed.
(** C98: a tracked function gives what the function gives, value or exception; calls that fail are not counted. *)
Lemma C98_transparent_proof : forall (A R : Type) (name : str) (clock : client -> client -> Z) (now : Z) (d : disk) (f : list A -> client -> res R * client) (args : list A) (s : client),
  fst (tracked name clock now d f args s) = fst (f args s) /\
  snd (tracked name clock now d f args s) = (match fst (f args s) with Ok _ => snd (track name (clock s (snd (f args s))) now d (snd (f args s))) | Raise _ => snd (f args s) end).
Proof. intros A R name clock now d f args s. unfold tracked. destruct (f args s) as [[r|e] s']; split; reflexivity. Qed.
Lemma C98_transparent_example_proof : fst (tracked name_a (fun _ _ => 3) 5 Good (fun (args : list Z) s => (if hd 0 args =? 0 then Raise ZeroDivisionError else Ok (10 / hd 0 args), s)) [2] (start false true 9 1 [])) = Ok 5.
Proof. reflexivity. Qed.
(** C98: a tracked method called with its object gives what the method gives; called with keywords only it fails with IndexError after having run. *)
Lemma C98_method_partial_proof : forall (A R : Type) (name : A -> str) (clock : client -> client -> Z) (now : Z) (d : disk) (f : list A -> client -> res R * client) (args : list A) (s : client),
  (args <> [] -> fst (tracked_method name clock now d f args s) = fst (f args s)) /\
  (forall r, args = [] -> fst (f args s) = Ok r -> fst (tracked_method name clock now d f args s) = Raise IndexError).
Proof.
  intros A R name clock now d f args s. unfold tracked_method. split.
  - intro NE. destruct (f args s) as [[r|e] s']; [|reflexivity]. destruct args; [congruence|reflexivity].
  - intros r -> E. destruct (f [] s) as [[r'|e] s']; [reflexivity|discriminate].
Qed.
Lemma C98_method_example_proof : [1] <> (@nil Z).
Proof. discriminate. Qed.

(** C98: a tracked class makes what the plain class makes, and a new object is counted once if it is of this very class, not if it is of a class derived from it. *)
Lemma C98_class_proof : forall (A R : Type) (name : str) (same : A -> bool) (now : Z) (d : disk) (init : list A -> client -> res R * client) (self : A) (args : list A) (s : client),
  (same self = false -> tracked_init name same now d init (self :: args) s = init (self :: args) s) /\
  (same self = true -> tracked_init name same now d init (self :: args) s = init (self :: args) (step (Track name 0 now d) s)).
Proof. intros A R name same now d init self args s. unfold tracked_init. split; intros ->; reflexivity. Qed.
Lemma C98_class_example_proof : let init := fun (args : list Z) s => (Ok (hd 0 args), s) in let s := start false true 9 1 [] in
  t_cache (snd (tracked_init name_a (Z.eqb 1) 5 Good init [1] s)) = [(name_a, mkI 1 0 0)] /\ t_cache (snd (tracked_init name_a (Z.eqb 1) 5 Good init [2] s)) = [].
Proof. split; reflexivity. Qed.
(** C98: where the directory cannot be written telemetry is off, even if it is switched on: no log and no upload, short of ignore(). *)
Lemma C98_read_only_proof : forall (enabled : bool) (max_entries pid now : Z) (l : list op) (d : disk) (files : list (Z * Z * content)) (sends : Z), ~ In Ignore l ->
  snd (fst (session true max_entries pid l now d (enabled, files, sends))) = files /\ snd (session true max_entries pid l now d (enabled, files, sends)) = sends.
Proof.
  intros enabled max_entries pid now l d files sends NI. unfold session. cbn [fst snd].
  assert (G : forall l s, ~ In Ignore l -> t_readonly s = true -> t_active s = false -> t_files (run l s) = t_files s /\ t_sends (run l s) = t_sends s).
  { clear. induction l as [|o l IH]; intros s NI RO AC; [split; reflexivity|]. unfold run in *. cbn [fold_left].
    assert (X : t_readonly (step o s) = true /\ t_active (step o s) = false /\ t_files (step o s) = t_files s /\ t_sends (step o s) = t_sends s).
    { destruct o; cbn [step].
      - unfold track. rewrite AC, orb_true_r. cbn. auto.
      - unfold write. rewrite AC. cbn. auto.
      - cbn. auto.
      - unfold enable. rewrite RO. cbn. auto.
      - cbn. auto.
      - exfalso. apply NI. left. reflexivity. }
    destruct X as (X1 & X2 & X3 & X4). rewrite <- X3, <- X4. apply IH; try assumption. intro. apply NI. right. assumption. }
  destruct (G l (start true enabled max_entries pid files) NI eq_refl eq_refl) as [F S]. rewrite F, S. cbn. split; [reflexivity|apply Z.add_0_r].
Qed.
Lemma C98_read_only_example_proof : ~ In Ignore [Enable; Track name_a 1 5 Good; Write 6 Good].
Proof. cbn. intuition discriminate. Qed.

(** C99: no telemetry is lost between the clients and the server, wherever uploads stop: a log that was written is on the disk, or the server has it, or an upload read it while it was being written. *)
Lemma C99_not_lost_partial_proof : forall (server : list Z) (l : list event) (n : Z * Z) (p : Z), let w0 := mkW [] None server in
  completed n p l w0 -> on_disk n p (history l w0) \/ In p (w_server (history l w0)) \/ read_half n l w0.
Proof. intros server l n p w0 C. destruct (inv_all w0 l eq_refl eq_refl) as [_ [_ G]]. apply G, C. Qed.
Definition week : Z := 604800.
Definition good_day : list event := [Opened (1, 1) 1; Filled (1, 1) 55 1; Starts (week + 9); Reads; Reads; Posts true true; Unlinks true; Unlinks true].
Lemma C99_not_lost_example_proof : completed (1, 1) 55 good_day (mkW [] None []) /\ history good_day (mkW [] None []) = mkW [] None [55].
Proof. split; [|reflexivity]. exists [Opened (1, 1) 1], [Starts (week + 9); Reads; Reads; Posts true true; Unlinks true; Unlinks true], 1. split; [reflexivity|]. exists 1. left. reflexivity. Qed.
(** C99: the server only gets what clients have written. *)
Lemma C99_honest_proof : forall (l : list event) (p : Z), let w0 := mkW [] None [] in In p (w_server (history l w0)) -> exists n, completed n p l w0.
Proof. intros l p w0 H. apply (honest_all w0 l eq_refl eq_refl eq_refl p). auto. Qed.
Lemma C99_honest_example_proof : In 55 (w_server (history good_day (mkW [] None []))).
Proof. left. reflexivity. Qed.
(** C99: an upload only begins when some log has been there for a week. *)
Lemma C99_week_proof : forall (w : world) (now : Z), w_up w = None -> w_up (happens (Starts now) w) <> None -> exists f, In f (w_files w) /\ 7 * 24 * 60 * 60 <= now - f_time f.
Proof.
  intros w now U H. cbn [happens] in H. rewrite U in H. destruct (w_files w) as [|f fs] eqn:F; [congruence|]. destruct (Z.ltb_spec (now - oldest (f :: fs)) (7 * 86400)) as [L|L]; [congruence|].
  destruct (oldest_in (f :: fs)) as [g [I E]]; [discriminate|]. exists g. split; [exact I|]. rewrite E. lia.
Qed.
Lemma C99_week_example_proof : w_up (happens (Starts (week + 1)) (mkW [mkF (1, 1) (Whole 5) 1] None [])) <> None.
Proof. discriminate. Qed.
(** C99, finding: a log that another process is just writing when an upload reads it is removed without having been sent. *)
Lemma C99_half_refuted_proof : exists l n p, let w := history l (mkW [] None []) in completed n p l (mkW [] None []) /\ ~ on_disk n p w /\ ~ In p (w_server w) /\ w_up w = None.
Proof.
  exists [Opened (1, 1) 1; Filled (1, 1) 55 1; Opened (2, 2) week; Starts (week + 9); Reads; Reads; Filled (2, 2) 66 (week + 9); Reads; Posts true true; Unlinks true; Unlinks true; Unlinks true], (2, 2), 66.
  cbn zeta. split; [|split; [|split; [|reflexivity]]].
  - exists [Opened (1, 1) 1; Filled (1, 1) 55 1; Opened (2, 2) week; Starts (week + 9); Reads; Reads], [Reads; Posts true true; Unlinks true; Unlinks true; Unlinks true], (week + 9). split; [reflexivity|]. exists week. right. left. reflexivity.
  - intros [t []].
  - cbn. intuition discriminate.
Qed.
(** C99, finding: if the reply does not come back the logs are sent again. *)
Lemma C99_twice_refuted_proof : exists l, w_server (history l (mkW [] None [])) = [55; 55] /\ w_files (history l (mkW [] None [])) = [].
Proof. exists [Opened (1, 1) 1; Filled (1, 1) 55 1; Starts (week + 9); Reads; Reads; Posts true false; Starts (week + 99); Reads; Reads; Posts true true; Unlinks true; Unlinks true]. split; reflexivity. Qed.
