(** Property theorems (generated from P_CatT.v by tools/gen_theorems.py). *)
From Coq Require Import List ZArith Lia Bool.
From Verif Require Import M_Cat S_Cat P_Str P_Cat P_CatA P_CatB P_CatF P_CatT.
Import ListNotations.
Open Scope Z_scope.

(** A catalog read from any file is a mapping of its primary names: iterating gives each once and as many as len() says; each of them
    can be looked up and is the name of the entry found; every other name that is found is an alias of the entry found, which is
    listed under its own name; and subscription raises nothing but KeyError, exactly for the names that are not "in" the catalog. *)
Theorem C126_mapping : forall F ls (c : catalog F), lwa_parse F ls new_catalog = Ok c \/ psr_parse F ls = Ok c ->
  NoDup (iterate c) /\ cat_len c = Z.of_nat (length (iterate c)) /\
  (forall k, In k (iterate c) -> exists e, getitem c k = Ok e /\ e_name e = k) /\
  (forall k e, getitem c k = Ok e -> (e_name e = k \/ In k (e_alias e)) /\ In (e_name e) (iterate c)) /\
  (forall k, contains_key c k = true <-> exists e, lookup c k = Some e /\ getitem c k = Ok e) /\
  (forall k, contains_key c k = false <-> lookup c k = None /\ getitem c k = Raise KeyError).
Proof. exact C126_mapping_proof. Qed.
Print Assumptions C126_mapping.

Example C126_mapping_example : exists c, lwa_parse exF [ex_tau; ex_ori; ex_tau] new_catalog = Ok c /\ cat_len c = 2 /\
  contains_key c (Some [77; 49]) = true /\ ~ In (Some [77; 49]) (iterate c) /\ contains_key c (Some [77; 50]) = false.
Proof. exact C126_mapping_example_proof. Qed.

(** The catalog read from an LWA catalog file holds the sources the file describes: a name leads to the last source with this
    primary name or else to the last one with this alias, with the position and sign written in the file. *)
Theorem C127_lwa_file : forall F ls ss, lwa_file (F := F) ls ss -> exists c, lwa_parse F ls new_catalog = Ok c /\ holds c ss.
Proof. exact C127_lwa_file_proof. Qed.
Print Assumptions C127_lwa_file.

Example C127_lwa_file_example : lwa_file (F := exF) [[35; 32; 97]; ex_tau; [32; 10]; ex_ori] [src_tau; src_ori].
Proof. exact C127_lwa_file_example_proof. Qed.

(** The catalog read from a PSRCAT file holds the pulsars of its records, in whatever order a record gives its values: under the B
    name with the J name as alias, or under the J name; a record without a usable position is left out, and so is what follows the
    last end-of-record line. *)
Theorem C128_psr_file : forall F ls ss, psr_file (F := F) ls ss -> exists c, psr_parse F ls = Ok c /\ holds c (kept ss).
Proof. exact C128_psr_file_proof. Qed.
Print Assumptions C128_psr_file.

Example C128_psr_file_example : psr_file (F := exF) ([ex_p0; ex_dec; ex_j; ex_ra; ex_b] ++ ex_end :: [ex_j; ex_ra; ex_dec2] ++ ex_end :: [ex_p0]) [Some src_psr; None].
Proof. exact C128_psr_file_example_proof. Qed.

(** A line of an LWA catalog file that is long enough to hold the sign of the declination and has a field that is not a number
    stops the reading with a RuntimeError.  Missing: shorter lines and numbers out of range, see below. *)
Theorem C129_lwa_reported_partial : forall F pre ss l post, lwa_file (F := F) pre ss -> lwa_unreadable F l -> lwa_parse F (pre ++ l :: post) new_catalog = Raise RuntimeError.
Proof. exact C129_lwa_reported_partial_proof. Qed.
Print Assumptions C129_lwa_reported_partial.

Example C129_lwa_reported_partial_example : lwa_unreadable exF (firstn 22 ex_ori ++ [120; 120] ++ skipn 24 ex_ori).
Proof. exact C129_lwa_reported_partial_example_proof. Qed.

(** A line cut off after the right ascension is an IndexError, and a right ascension of 24 hours a ValueError: neither is the
    RuntimeError that names the file and the line. *)
Theorem C129_lwa_reported_refuted : exists l1 l2, lwa_parse exF [ex_tau; l1] new_catalog = Raise IndexError /\ lwa_parse exF [ex_tau; l2] new_catalog = Raise ValueError /\
  l1 = firstn 20 ex_ori ++ [10] /\ l2 = firstn 9 ex_ori ++ [50; 52] ++ skipn 11 ex_ori.
Proof. exact C129_lwa_reported_refuted_proof. Qed.
Print Assumptions C129_lwa_reported_refuted.

(** A right ascension that is not written in two or three parts stops the reading of a PSRCAT file with a NameError (the
    unbound raHours) when it is the first one, for whatever follows; a declination like that only leaves its pulsar out. *)
Theorem C129_psr_first_refuted : forall F pre t l post, Forall other_line pre -> odd_text t -> says KRA t l -> psr_parse F (pre ++ l :: post) = Raise NameError.
Proof. exact C129_psr_first_refuted_proof. Qed.
Print Assumptions C129_psr_first_refuted.

Example C129_psr_first_refuted_example : odd_text [53] /\ says KRA [53] ex_ra1 /\ Forall other_line [ex_p0] /\
  (exists c, psr_parse exF [ex_ra; ex_dec; ex_end; ex_j; ex_ra1; ex_dec; ex_end] = Ok c /\ cat_len c = 1).
Proof. exact C129_psr_first_refuted_example_proof. Qed.

(** One right ascension with a field that is not a number and the whole PSRCAT file cannot be read: a ValueError, wherever it is. *)
Theorem C129_psr_abort_refuted : exists ls l post c, psr_parse exF ls = Ok c /\ cat_len c = 1 /\ psr_parse exF (ls ++ l :: post) = Raise ValueError /\ l = ex_rax /\ post = [ex_dec; ex_end].
Proof. exact C129_psr_abort_refuted_proof. Qed.
Print Assumptions C129_psr_abort_refuted.

(** The pulsar of a last record without the end-of-record line is lost. *)
Theorem C129_psr_last_refuted : exists c, psr_parse exF [ex_j; ex_ra; ex_dec] = Ok c /\ cat_len c = 0 /\ exists c2, psr_parse exF [ex_j; ex_ra; ex_dec; ex_end] = Ok c2 /\ cat_len c2 = 1.
Proof. exact C129_psr_last_refuted_proof. Qed.
Print Assumptions C129_psr_last_refuted.

(** In any session with the factory, whichever constructions fail: a request fails with ValueError exactly for an unknown name
    (or with what the construction raised), every successful request for a name gives one and the same instance, different names
    give different ones, and a catalog is never constructed again after it has been constructed once. *)
Theorem C130_factory : forall outcome ns os f, session outcome ns new_factory = (os, f) ->
  map fst os = ns /\
  (forall n r, In (n, r) os -> ~ In n FACTORY_NAMES -> r = Raise ValueError) /\
  (forall n e, In (n, Raise e) os -> In n FACTORY_NAMES -> exists j, nth_error (attempts f) j = Some n /\ outcome j = Some e) /\
  (forall n m i j, In (n, Ok i) os -> In (m, Ok j) os -> (n = m <-> i = j)) /\
  (forall n i, In (n, Ok i) os -> nth_error (attempts f) i = Some n /\ outcome i = None /\ forall j, (i < j)%nat -> nth_error (attempts f) j <> Some n).
Proof. exact C130_factory_proof. Qed.
Print Assumptions C130_factory.

Example C130_factory_example : session (fun i => if Nat.eqb i 1 then Some RuntimeError else None) [[76; 87; 65]; [80; 83; 82]; [76]; [76; 87; 65]; [80; 83; 82]] new_factory =
  ([([76; 87; 65], Ok 0%nat); ([80; 83; 82], Raise RuntimeError); ([76], Raise ValueError); ([76; 87; 65], Ok 0%nat); ([80; 83; 82], Ok 2%nat)],
   mkFac [([80; 83; 82], 2%nat); ([76; 87; 65], 0%nat)] [[76; 87; 65]; [80; 83; 82]; [80; 83; 82]]).
Proof. exact C130_factory_example_proof. Qed.

(** A name that was asked for without success is constructed anew at the next request. *)
Theorem C130_retry : forall outcome ns os f n, session outcome ns new_factory = (os, f) -> In n FACTORY_NAMES -> (forall i, ~ In (n, Ok i) os) ->
  forall r f', get_catalog outcome n f = (r, f') -> attempts f' = attempts f ++ [n] /\ r = match outcome (length (attempts f)) with Some e => Raise e | None => Ok (length (attempts f)) end.
Proof. exact C130_retry_proof. Qed.
Print Assumptions C130_retry.

Example C130_retry_example : In [80; 83; 82] FACTORY_NAMES /\ fst (get_catalog (fun i => if Nat.eqb i 0 then Some OSError else None) [80; 83; 82] (snd (session (fun i => if Nat.eqb i 0 then Some OSError else None) [[80; 83; 82]] new_factory))) = Ok 1%nat.
Proof. exact C130_retry_example_proof. Qed.
