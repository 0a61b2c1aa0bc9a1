(** Model of DRSpecFile (lsl/reader/ldp.py 1229-1452): opening, offset and read, over the bytes of the file. *)
From Coq Require Import List ZArith Bool QArith_base.
From Verif Require Export M_Files M_Drspec M_Num.
Import ListNotations.
Open Scope Z_scope.

(** An element of the data array: a number from a frame (or the 0 the array is made with), or NaN, which numpy
    makes of None. *)
Inductive scell := SCell (c : cell) | SNan.

(** The part of self.description that is used: frame_size, tint, LFFT, data_products.  tint is in samples
    at fS: nInt*LFFT/srate with srate = fS/decimation (ldp.py 1283-1285, drspec.py 155-162).
    Simplification: times and durations are exact. *)
Record sdesc := mkSD { sd_size : Z; sd_tint : Z; sd_lfft : Z; sd_prods : list Z }.

(** The open file: self.fh, self.description, self._timetag (None when it is not set) *)
Record sopen := mkSO { so_fh : file; so_desc : sdesc; so_tag : option Z }.

(** cFrame.time (drspec.py 325-333), samples at fS *)
Definition sf_time (x : sframe) : Z := s_tag (sf_head x) - s_toff (sf_head x).
(** nints*LFFT/sample_rate of a frame, samples at fS (ldp.py 1283-1285, 1329-1331) *)
Definition sf_tint (x : sframe) (lfft : Z) : Z := s_nints (sf_head x) * lfft * s_dec (sf_head x).

(** _ready_file (ldp.py 1246-1260): the loop; [fuel] bounds the turns, each moves on by a byte *)
Fixpoint spec_align (fuel : nat) (f : file) : file * res unit :=
  match fuel with
  | O => (f, Raise MemoryError)   (* never reached *)
  | S k => match read_drspec f with
           | (f1, AtEOF) => (f1, Raise EOFError)
           | (f1, BadSync _) => spec_align k (fst (f_seek 1 1 f1))
           | (f1, Got _) => (f1, Ok tt)
           end
  end.
(** then the step back (ldp.py 1258): by the size of the frame after the one just read *)
Definition spec_ready (f : file) : file * res unit :=
  match spec_align (S (length (f_data f))) f with
  | (f1, Raise e) => (f1, Raise e)
  | (f1, Ok _) =>
      match drs_frame_size f1 with
      | (f2, Raise e) => (f2, Raise e)
      | (f2, Ok n) => match f_seek (- n) 1 f2 with
                      | (f3, Some e) => (f3, Raise e)
                      | (f3, None) => (f3, Ok tt)
                      end
      end
  end.

(** _describe_file (ldp.py 1262-1299) *)
Definition spec_describe (f : file) : file * res sdesc :=
  match drs_frame_size f with
  | (f1, Raise e) => (f1, Raise e)
  | (f1, Ok n) =>
      match get_transform_size f1 with
      | (f2, Raise e) => (f2, Raise e)
      | (f2, Ok l) =>
          match drs_peek (fun x => if s_dec (sf_head x) =? 0 then Raise ZeroDivisionError
                                   else Ok (mkSD n (sf_tint x l) l (data_products (s_format (sf_head x))))) f2 with
          | (f3, r) => (f3, r)
          end
      end
  end.

(** DRSpecFile(filename): LDPFileBase.__init__ (ldp.py 103-129): ready, then describe *)
Definition spec_open (data : list Z) : res sopen :=
  match spec_ready (mkFile data 0) with
  | (_, Raise e) => Raise e
  | (f, Ok _) => match spec_describe f with
                 | (_, Raise e) => Raise e
                 | (f1, Ok d) => Ok (mkSO f1 d None)
                 end
  end.

(** data[j, count, :] = getattr(payload, name, None) (ldp.py 1441-1442): an array of the right length, one of length 1
    (numpy repeats it), a missing one, or numpy's ValueError *)
Definition fill_row (lfft : Z) (a : option (list cell)) : res (list scell) :=
  match a with
  | None => Ok (repeat SNan (Z.to_nat lfft))
  | Some l => if zlen l =? lfft then Ok (map SCell l)
              else match l with
                   | [c] => Ok (repeat (SCell c) (Z.to_nat lfft))
                   | _ => Raise ValueError
                   end
  end.
Fixpoint fill_rows (lfft : Z) (l : list (option (list cell))) : res (list (list scell)) :=
  match l with
  | [] => Ok []
  | a :: r => bind (fill_row lfft a) (fun x => bind (fill_rows lfft r) (fun y => Ok (x :: y)))
  end.
(** The 2*nproduct rows of a frame: the arrays of tuning 1 at j, those of tuning 2 at j + nproduct (ldp.py 1440-1442) *)
Definition out_of (x : sframe) (p : Z) : option (list cell * list cell) :=
  match find (fun kv => fst kv =? p) (sf_out x) with Some (_, v) => Some v | None => None end.
Definition frame_rows (d : sdesc) (x : sframe) : res (list (list scell)) :=
  fill_rows (sd_lfft d) (map (fun p => option_map fst (out_of x p)) (sd_prods d) ++
                         map (fun p => option_map snd (out_of x p)) (sd_prods d)).

(** cTimetag > self._timetag + 1.001*timetagSkip (ldp.py 1424) *)
Definition late (tint tag c : Z) : bool := 1001 * tint <? 1000 * (c - tag).

(** The loop over range(frame_count) (ldp.py 1414-1445): [got] holds the rows of the frames read, [t] is setTime *)
Fixpoint spec_loop (ignore : bool) (n : nat) (d : sdesc) (f : file) (tag : Z) (got : list (list (list scell))) (t : option Z)
  : file * Z * res (list (list (list scell)) * option Z) :=
  match n with
  | O => (f, tag, Ok (got, t))
  | S k =>
      match read_drspec f with
      | (f1, AtEOF) => (f1, tag, Ok (got, t))
      | (f1, BadSync _) => spec_loop ignore k d f1 tag got t
      | (f1, Got x) =>
          let c := sf_time x in
          if late (sd_tint d) tag c && negb ignore then (f1, tag, Raise RuntimeError)
          else match frame_rows d x with
               | Raise e => (f1, tag, Raise e)
               | Ok rows => spec_loop ignore k d f1 c (got ++ [rows]) (match t with None => Some c | _ => t end)
               end
      end
  end.

(** The data array (ldp.py 1408): 2*nproduct x frame_count x LFFT, zeros where nothing was written *)
Definition spec_array (d : sdesc) (n : nat) (got : list (list (list scell))) : list (list (list scell)) :=
  map (fun j => map (fun rows => nth j rows []) got ++
                repeat (repeat (SCell CZero) (Z.to_nat (sd_lfft d))) (n - length got))
      (seq 0 (2 * length (sd_prods d))).

(** What the first read does to find self._timetag (ldp.py 1398-1403) *)
Definition spec_first (s : sopen) : sopen * option exn :=
  match so_tag s with
  | Some _ => (s, None)
  | None =>
      match read_drspec (so_fh s) with
      | (f1, AtEOF) => (mkSO f1 (so_desc s) (Some 0), Some EOFError)
      | (f1, BadSync _) => (mkSO f1 (so_desc s) (Some 0), Some SyncError)
      | (f1, Got x) =>
          let '(f2, e) := f_seek (- sd_size (so_desc s)) 1 f1 in
          (mkSO f2 (so_desc s) (Some (sf_time x - sd_tint (so_desc s))), e)
      end
  end.

(** read(duration) (ldp.py 1361-1452); [n] is int(round(duration/tint)).  The number of frames stands for the
    returned duration, which is that number times tint. *)
Definition spec_read (ignore : bool) (n : Z) (s : sopen) : sopen * res (nat * option Z * list (list (list scell))) :=
  if f_tell (so_fh s) =? zlen (f_data (so_fh s)) then (s, Raise EOFError)
  else
    match spec_first s with
    | (s1, Some e) => (s1, Raise e)
    | (s1, None) =>
        if sd_tint (so_desc s) =? 0 then (s1, Raise ZeroDivisionError)
        else
          let n := if n =? 0 then 1 else n in
          if n <? 0 then (s1, Raise ValueError)
          else
            let tag := match so_tag s1 with Some t => t | None => 0 end in
            let '(f, tag', r) := spec_loop ignore (Z.to_nat n) (so_desc s) (so_fh s1) tag [] None in
            (mkSO f (so_desc s) (Some tag'),
             bind r (fun '(got, t) => Ok (length got, t, spec_array (so_desc s) (Z.to_nat n) got)))
    end.

(** A sequence of calls; it goes on after an exception. *)
Fixpoint spec_reads (ignore : bool) (ns : list Z) (s : sopen) : list (res (nat * option Z * list (list (list scell)))) :=
  match ns with
  | [] => []
  | n :: r => let '(s1, o) := spec_read ignore n s in o :: spec_reads ignore r s1
  end.

(** offset(offset) (ldp.py 1301-1360), [o] in samples at fS.  The loop: [used] is diffs_used, the last 25 differences;
    false is the "giving up" warning.  [fuel] bounds the turns. *)
Fixpoint distinct (l : list Q) : nat :=
  match l with [] => O | x :: r => if existsb (Qeq_bool x) r then distinct r else S (distinct r) end.
Definition keep25 (l : list Q) : list Q := skipn (length l - 25) l.
Fixpoint offset_loop (fuel : nat) (d : sdesc) (t0 : Z) (o : Q) (f : file) (used : list Q) : file * res (Z * bool) :=
  match fuel with
  | O => (f, Raise MemoryError)
  | S k =>
      match read_drspec f with
      | (f1, AtEOF) => (f1, Raise EOFError)
      | (f1, BadSync _) => (f1, Raise SyncError)
      | (f1, Got x) =>
          match f_seek (- sd_size d) 1 f1 with
          | (f2, Some e) => (f2, Raise e)
          | (f2, None) =>
              match (if s_dec (sf_head x) =? 0 then Raise ZeroDivisionError else transform_size x) with
              | Raise e => (f2, Raise e)
              | Ok l =>
                  if sf_tint x l =? 0 then (f2, Raise ZeroDivisionError)
                  else
                    let diff := (inject_Z (sf_time x) - (inject_Z t0 + o))%Q in
                    let used := keep25 (used ++ [diff]) in
                    let c := py_round (- diff / 2 / inject_Z (sf_tint x l))%Q in
                    if c =? 0 then (f2, Ok (sf_time x, true))
                    else match f_seek (c * sd_size d) 1 f2 with
                         | (f3, Some _) => (f3, Ok (sf_time x, false))
                         | (f3, None) =>
                             if (length used / 4 <? distinct used)%nat then offset_loop k d t0 o f3 used
                             else (f3, Ok (sf_time x, false))
                         end
              end
          end
      end
  end.
(** The result is t1 - t0 and whether the search ended without the warning. *)
Definition spec_offset (fuel : nat) (o : Q) (s : sopen) : sopen * res (Z * bool) :=
  let d := so_desc s in
  match read_drspec (so_fh s) with
  | (f1, AtEOF) => (mkSO f1 d (so_tag s), Raise EOFError)
  | (f1, BadSync _) => (mkSO f1 d (so_tag s), Raise SyncError)
  | (f1, Got x) =>
      match f_seek (- sd_size d) 1 f1 with
      | (f2, Some e) => (mkSO f2 d (so_tag s), Raise e)
      | (f2, None) =>
          if sd_tint d =? 0 then (mkSO f2 d (so_tag s), Raise ZeroDivisionError)
          else match f_seek (py_round (o / inject_Z (sd_tint d))%Q * sd_size d) 1 f2 with
               | (f3, Some e) => (mkSO f3 d (so_tag s), Raise e)
               | (f3, None) =>
                   match offset_loop fuel d (sf_time x) o f3 [] with
                   | (f4, Raise e) => (mkSO f4 d (so_tag s), Raise e)
                   | (f4, Ok (t1, fine)) =>
                       match spec_describe f4 with
                       | (f5, Raise e) => (mkSO f5 d (so_tag s), Raise e)
                       | (f5, Ok d') => (mkSO f5 d' None, Ok (t1 - sf_time x, fine))
                       end
                   end
               end
      end
  end.
