(** Model of CORFile.read and TBXFile.read (lsl/reader/ldp.py 2024-2177 and 1641-1852): the frames of a
    file go through the frame buffer of M_Buffer.v, set by set into the data array. *)
From Coq Require Import List ZArith Bool QArith_base.
From Verif Require Export M_Buffer M_BufferModes M_Flt.
Import ListNotations.
Open Scope Z_scope.

(** What successive read_frame(self.fh) calls find from the file position on: a frame of the
    wanted kind, a frame that is none (is_cor / is_tbx is False), something with a bad sync word
    together with what is skipped after it (errors.SyncError), or a last stretch
    shorter than a frame (errors.EOFError).  The byte level is in M_Cor.v. *)
Inductive cslot (F : Type) := CFrame (f : F) | COther | CBad | CTail.
Arguments CFrame {F}. Arguments COther {F}. Arguments CBad {F}. Arguments CTail {F}.

(** The loop over range(framesPerObs) (ldp.py 2079-2092 COR, 1720-1742 TBX): the rest of the file, the frames
    read, whether eofFound was set, nSkip.  [lim] is the limit on nSkip after a SyncError:
    None for COR, 40000 for TBX. *)
Fixpoint take_frames {F} (lim : option Z) (n : nat) (nskip : Z) (l : list (cslot F)) : list (cslot F) * list F * bool * Z :=
  match n with
  | O => (l, [], false, nskip)
  | S k =>
      match l with
      | [] => ([], [], true, nskip)
      | CTail :: r => (r, [], true, nskip)
      | COther :: r => take_frames lim k (nskip + 1) r
      | CBad :: r => match lim with
                     | Some m => if m <? nskip + 1 then (r, [], true, nskip + 1) else take_frames lim k (nskip + 1) r
                     | None => take_frames lim k (nskip + 1) r
                     end
      | CFrame f :: r => let '(r', fs, e, x) := take_frames lim k 0 r in (r', f :: fs, e, x)
      end
  end.

Fixpoint upd {A} (i : nat) (x : A) (l : list A) : list A :=
  match l, i with
  | [], _ => []
  | _ :: r, O => x :: r
  | y :: r, S k => y :: upd k x r
  end.

(** self._timetag, setTime (in samples) and, for each aStand, the blocks written to the data array
    (count[aStand] is their number) *)
Record got := mkGot { g_tag : Z; g_time : option Z; g_rows : list (list (list num)) }.

(** The open file: what is left to read, the number of frame sizes before the file position, self.buffer,
    self._timetag (None until the first read) *)
Record cfile (F : Type) := mkCF { cf_left : list (cslot F); cf_pos : Z; cf_buf : st F; cf_tag : option Z }.
Arguments mkCF {F}. Arguments cf_left {F}. Arguments cf_pos {F}. Arguments cf_buf {F}. Arguments cf_tag {F}.

Section Read.
(** The buffer class and its configuration; cFrame.payload.data; the place aStand of a frame (with the
    exception of the look-up); framesPerObs; timetagSkip; self.ignore_timetag_errors.  The time tag
    of a frame is the figure of merit of both buffer classes (buffer.py 701-707, 855-861). *)
Context {F : Type} (M : ops F) (C : cfg) (dat : F -> list num) (place : F -> res nat).
Context (fpo : nat) (skip : Z) (ignore : bool).

(** The body of "for cFrame in cFrames" (ldp.py 2115-2128, 1788-1803; again in the flush part). [n] is
    frame_count; an index out of range is numpy's or the list's IndexError. *)
Definition put_frame (n : nat) (a : got) (f : F) : res got :=
  bind (place f) (fun i =>
    match nth_error (g_rows a) i with
    | None => Raise IndexError
    | Some r =>
        if (n <=? length r)%nat then Raise IndexError
        else Ok (mkGot (g_tag a) (match g_time a with None => Some (o_fom M f) | t => t end)
                       (upd i (r ++ [dat f]) (g_rows a)))
    end).
Fixpoint put_frames (n : nat) (a : got) (fs : list F) : res got :=
  match fs with
  | [] => Ok a
  | f :: r => bind (put_frame n a f) (fun a' => put_frames n a' r)
  end.

(** A set that came out of the buffer (ldp.py 2101-2129, 1774-1804, and the bodies of the flush
    loops 2135-2162, 1810-1839). *)
Definition put_set (n : nat) (a : got) (fs : list F) : res got :=
  match fs with
  | [] => Raise IndexError
  | f :: _ =>
      let c := o_fom M f in
      let old := if g_tag a =? 0 then c - skip else g_tag a in
      if negb (c =? old + skip) && negb ignore then Raise RuntimeError
      else put_frames n (mkGot c (g_time a) (g_rows a)) fs
  end.

(** The main loop of CORFile.read (ldp.py 2075-2129). [fuel]: see [loop] in M_Ldp.v. *)
Fixpoint cor_loop (fuel n : nat) (file : list (cslot F)) (s : st F) (a : got) (nsets : nat) (eof : bool)
  : res (list (cslot F) * st F * got * nat * bool) :=
  match fuel with
  | O => Raise MemoryError   (* never reached *)
  | S fuel' =>
      if eof || (nsets =? n)%nat then Ok (file, s, a, nsets, eof)
      else
        let '(file', fs, e, _) := take_frames None fpo 0 file in
        bind (append M s fs) (fun s1 =>
        bind (get M C s1) (fun '(s2, out) =>
          match out with
          | None => cor_loop fuel' n file' s2 a nsets e
          | Some l => bind (put_set n a l) (fun a' => cor_loop fuel' n file' s2 a' (S nsets) e)
          end))
  end.

(** The zero filling of TBXFile.read (ldp.py 1745-1767): baseframe with time tag m and zeros for data; the step is
    8192 whatever timetagSkip is.  [cf] is cFrames, None when it is not bound yet
    (NameError: the buffer entry is used); an empty cFrames is an IndexError.  The float quotient is an integer
    below the limit exactly when the integers divide. *)
Context (zero_at : F -> Z -> F) (autofill : Z).
Definition tbx_step : Z := 8192.
Fixpoint zero_sets (base : F) (tag : Z) (i : Z) (n : nat) : list F :=
  match n with
  | O => []
  | S k => zero_at base (tag + tbx_step * i) :: zero_sets base tag (i + 1) k
  end.
Definition tbx_gap (s : st F) (cf : option (list F)) (ct tag : Z) : res (st F) :=
  if (tag =? 0) || (ct =? tag + tbx_step) then Ok s
  else
    let d := ct - tag - tbx_step in
    if (d mod tbx_step =? 0) && (d / tbx_step <? autofill) then
      match Z.to_nat (d / tbx_step) with
      | O => Ok s
      | m => match match cf with
                   | Some l => nth_error l 0
                   | None => match lookup ct (s_buf s) with Some l => nth_error l 0 | None => None end
                   end with
             | None => Raise IndexError
             | Some base => append M s (zero_sets base tag 1 m)
             end
      end
    else Ok s.

(** The main loop of TBXFile.read (ldp.py 1714-1804). *)
Definition skip_limit : Z := 40000.
Fixpoint tbx_loop (fuel n : nat) (file : list (cslot F)) (nskip : Z) (s : st F) (a : got)
         (cf : option (list F)) (nsets : nat) (eof : bool)
  : res (list (cslot F) * st F * got * nat * bool) :=
  match fuel with
  | O => Raise MemoryError   (* never reached *)
  | S fuel' =>
      if eof || (nsets =? n)%nat then Ok (file, s, a, nsets, eof)
      else
        bind (if overfilled C s then Ok (file, nskip, s, cf, eof)
              else
                let '(file', fs, e, x) := take_frames (Some skip_limit) fpo nskip file in
                bind (append M s fs) (fun s' => Ok (file', x, s', Some (if e then [] else fs), eof || e)))
          (fun '(file1, nskip1, s1, cf1, eof1) =>
             match peek C true s1 with
             | None => tbx_loop fuel' n file1 nskip1 s1 a cf1 nsets eof1
             | Some ct =>
                 bind (tbx_gap s1 cf1 ct (g_tag a)) (fun s2 =>
                 bind (get M C s2) (fun '(s3, out) =>
                   match out with
                   | None => tbx_loop fuel' n file1 nskip1 s3 a None nsets eof1   (* never reached after peek() *)
                   | Some l => bind (put_set n a l) (fun a' => tbx_loop fuel' n file1 nskip1 s3 a' (Some l) (S nsets) eof1)
                   end))
             end)
  end.

(** "for cFrames in self.buffer.flush()" with its break (ldp.py 2134-2165, 1809-1842): flush is a generator,
    sets not asked for stay in the buffer *)
Fixpoint flush_sets (n : nat) (s : st F) (ks : list Z) (a : got) (nsets : nat) : res (st F * got * nat) :=
  match ks with
  | [] => Ok (s, a, nsets)
  | k :: r =>
      bind (get_key M C s k) (fun '(s', fs) =>
      bind (put_set n a fs) (fun a' =>
        if (S nsets =? n)%nat then Ok (s', a', S nsets) else flush_sets n s' r a' (S nsets)))
  end.

(** What follows the main loop (ldp.py 2131-2177, 1806-1852), for frame_count = n: the flush at the end of the
    file, the check that something was read, the returned number of sets, time and rows.
    Simplification: a call that raises has no state after it. *)
Definition finish (n : nat) (pos : Z) (before : nat) (r : list (cslot F) * st F * got * nat * bool)
  : res (cfile F * (nat * option Z * list (list (list num)))) :=
  let '(file, s, a, nsets, eof) := r in
  bind (if eof && negb (nsets =? n)%nat then flush_sets n s (keys (s_buf s)) a nsets else Ok (s, a, nsets)) (fun '(s', a', nsets') =>
    if (nsets' =? 0)%nat && negb (n =? 0)%nat then Raise EOFError
    else Ok (mkCF file (pos + Z.of_nat (before - length file)) s' (Some (g_tag a')), (nsets', g_time a', g_rows a'))).

Definition nothing_left (l : cfile F) : bool :=
  match cf_left l with [] => is_empty (cf_buf l) | _ => false end.
Definition start (l : cfile F) : got :=
  mkGot (match cf_tag l with None => 0 | Some t => t end) None (repeat [] fpo).

(** CORFile.read(duration), [n] being frame_count (ldp.py 2065-2066: at least 1; simplification: durations are not negative); None is
    duration=None, which uses framesPerObs before it is assigned (ldp.py 2062: UnboundLocalError, a NameError). *)
Definition cor_read (n : option nat) (l : cfile F) : res (cfile F * (nat * option Z * list (list (list num)))) :=
  if nothing_left l then Raise EOFError
  else match n with
       | None => Raise NameError
       | Some n =>
           bind (cor_loop (length (cf_left l) + n + 2) n (cf_left l) (cf_buf l) (start l) 0 false)
                (finish n (cf_pos l) (length (cf_left l)))
       end.

(** frame_count of TBXFile.read (ldp.py 1690-1699): [want] is int(round(duration*sample_rate)), None for
    duration=None, where the quotient and the product by sample_rate give max_frame_count back
    (simplification: exactly).  [nframe] is description['nframe'].  Simplification: everything
    in the file is one frame size long. *)
Definition tbx_frame_count (nframe : Z) (want : option Z) (l : cfile F) : Z :=
  let most := (nframe - cf_pos l) / Z.of_nat fpo + Z.of_nat (length (s_buf (cf_buf l))) in
  Z.min (Z.max (match want with None => most | Some w => w end) 1) most.

(** TBXFile.read with that frame_count (ldp.py 1641-1852): np.zeros refuses a negative one. *)
Definition tbx_read_n (n : nat) (l : cfile F) : res (cfile F * (nat * option Z * list (list (list num)))) :=
  bind (tbx_loop (length (cf_left l) + n + 2) n (cf_left l) 0 (cf_buf l) (start l) None 0 false)
       (finish n (cf_pos l) (length (cf_left l))).
Definition tbx_read (nframe : Z) (want : option Z) (l : cfile F) : res (cfile F * (nat * option Z * list (list (list num)))) :=
  if nothing_left l then Raise EOFError
  else
    let n := tbx_frame_count nframe want l in
    if n <? 0 then Raise ValueError else tbx_read_n (Z.to_nat n) l.

(** A sequence of calls, stopping at the first exception. *)
Fixpoint calls {A} (f : A -> cfile F -> res (cfile F * (nat * option Z * list (list (list num))))) (ns : list A) (l : cfile F)
  : list (res (nat * option Z * list (list (list num)))) :=
  match ns with
  | [] => []
  | n :: r => match f n l with
              | Raise e => [Raise e]
              | Ok (l', o) => Ok o :: calls f r l'
              end
  end.
End Read.

(** A freshly opened file: a new buffer (ldp.py 1965, 1585), the position [pos]. *)
Definition open_cf {F} (C : cfg) (pos : Z) (file : list (cslot F)) : cfile F := mkCF file pos (init C 0) None.

(** ** COR *)
(** self.bmapperd (ldp.py 1936-1941) for [n] stands, 256 in the code: the pairs in the order in which they are numbered *)
Definition pairs (n : nat) : list (list Z) :=
  flat_map (fun i => map (fun j => [Z.of_nat i; Z.of_nat j]) (seq i (S n - i))) (seq 1 n).
(** the position of an element; None is the KeyError of the dictionary or the ValueError of list.index *)
Fixpoint index {A} (eqb : A -> A -> bool) (x : A) (l : list A) : option nat :=
  match l with
  | [] => None
  | y :: r => if eqb x y then Some 0%nat else match index eqb x r with Some k => Some (S k) | None => None end
  end.
(** aStand (ldp.py 2124-2126): bmapperd[cFrame.id]*len(cmapper) + cmapperd[first_chan] *)
Definition cor_place (stands : nat) (chans : list Z) (f : cor_frame) : res nat :=
  match index id_eqb [c_s0 f; c_s1 f] (pairs stands), index Z.eqb (c_chan f) chans with
  | Some b, Some c => Ok (b * length chans + c)%nat
  | _, _ => Raise KeyError
  end.
(** framesPerObs (ldp.py 2064): channel blocks times baselines, 32896 in the code (cor.py 308) *)
Definition cor_fpo (stands : nat) (chans : list Z) : nat := (length chans * (stands * (stands + 1) / 2))%nat.
(** timetagSkip = int(tint * fS) with tint = navg * T2 (ldp.py 2054, cor.py 121, ndp.py 29, 35), in double precision *)
Definition cor_skip (navg : Z) : Z := Qround.Qfloor (fl (fl (inject_Z navg * fl (1 # 100)) * inject_Z 196000000)).

(** ** TBX *)
(** timetagSkip = int(1.0 / sample_rate * fS) with sample_rate = fS / tt_step (ldp.py 1681, 1548), in double precision; [step]
    is the median difference of the time tags *)
Definition tbx_skip (step : Z) : Z := Qround.Qfloor (fl (fl (1 / fl (inject_Z 196000000 / inject_Z step)) * inject_Z 196000000)).
(** aStand = self.mapper.index(first_chan) (ldp.py 1801) *)
Definition tbx_place (chans : list Z) (f : tbx_frame) : res nat :=
  match index Z.eqb (x_chan f) chans with Some c => Ok c | None => Raise ValueError end.
(** copy.deepcopy(cFrames[0]) with a new time tag and zeros (ldp.py 1762-1766) *)
Definition tbx_zero_at (f : tbx_frame) (t : Z) : tbx_frame := mkTbx (x_chan f) t (map (fun _ => Fin 0) (x_data f)) (x_valid f).
