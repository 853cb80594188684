(** Model of what a run of the converter (/repo/cmd/converter/main.go) does to the files step
    by step: files are created empty and written with single calls, a disk may be full, and
    the process may be killed (or crash) at any moment.  The packers are those of Ipdb.v,
    Plain.v, Memip.v and Facade.v with their writes made explicit; PropsWrites.v relates the
    two. *)
From Verif Require Import Base NetIP IpNet Inf Ipdb Export Tables Operate Plain Memip AwDecode AwTree Facade Convert.
Open Scope nat_scope.

(** An open output file: what it holds and how much more fits on the disk. *)
(* os.Create, db/convert/packer.go:16 *)
Record sink := mkSink { kHolds : bytes; kRoom : nat }.
(** One call of Write: what does not fit is lost and reported (true: no error).  Simplified:
    what fits is written, and nothing fits afterwards. *)
(* os.File.Write, called from db/format/ipdb/writer.go:98-106 (bytes.Buffer.WriteTo: one call),
   db/format/plain/packer.go:18-23, db/format/memip/packer.go:42-44 (fmt.Fprintf: one call) *)
Definition wr (k : sink) (b : bytes) : sink * bool :=
  (mkSink (kHolds k ++ firstn (kRoom k) b) (kRoom k - length b), length b <=? kRoom k).
(* os.File.Write (no space left on device), returned at db/format/ipdb/writer.go:98-106, db/format/plain/packer.go:21-27 *)
Definition ErrWrite : error := ErrOther (str "write").

(** db/format/ipdb/writer.go:97-109: three writes, the first error is returned *)
Definition SaveTo (marshal : MetaData -> bytes) (w : Writer) (k : sink) : sink * option error :=
  let metaData := marshal (save_meta w) in
  let '(k, ok) := wr k (IntToBinaryBE (Z.of_nat (length metaData)) 32 ++ metaData) in
  if negb ok then (k, Some ErrWrite) else
  let '(k, ok) := wr k (node_chunk (wNode w)) in
  if negb ok then (k, Some ErrWrite) else
  let '(k, ok) := wr k (wChunk w) in
  (k, if negb ok then Some ErrWrite else None).
(** db/format/ipdb/packer.go:8-17 pack: nothing is written before all rows are inserted *)
Definition ipdb_to (E : env) (d : HData) (k : sink) : sink * res (HData * option error) :=
  match insert_allH (pack_writer (eNow E) (contents d)) (hHeap d) (hRows d) with
  | Ok (w, h) => let '(k, err) := SaveTo (jMeta E) w k in (k, Ok (mkH (hFields d) (hVersion d) (hRows d) h, err))
  | Err e => (k, Err e)
  | Panic => (k, Panic)
  | OutOfFuel => (k, OutOfFuel)
  end.
(** db/format/plain/packer.go:21-27: one write per row, the first error is returned *)
Fixpoint plain_rows_to (h : heap) (rows : list hrow) (k : sink) : sink * heap * option error :=
  match rows with
  | [] => (k, h, None)
  | (n, s) :: r =>
      let h1 := comma_cells h s 0 (sLen s) in
      let '(k, ok) := wr k (net_string n ++ x09 :: join x2c (view h1 s) ++ [x0a]) in
      if negb ok then (k, h1, Some ErrWrite) else plain_rows_to h1 r k
  end.
(** db/format/plain/packer.go:13-29 pack: the results of the first three writes are dropped *)
Definition plain_to (E : env) (d : HData) (k : sink) : sink * res (HData * option error) :=
  let k := fst (wr k (str "#### scan dump " ++ eClock E ++ str " ####" ++ [x0a])) in
  let k := fst (wr k (str "#### " ++ jVer E (hVersion d) ++ [x0a])) in
  let k := fst (wr k (str "#### " ++ join x2c (hFields d) ++ [x0a])) in
  let '(k, h, err) := plain_rows_to (hHeap d) (hRows d) k in
  (k, Ok (mkH (hFields d) (hVersion d) (hRows d) h, err)).
(** db/format/memip/packer.go:39-46: the results of all writes are dropped *)
Fixpoint mem_lines_to (v4 : bool) (l : list (Range * list bytes)) (k : sink) : sink * res unit :=
  match l with
  | [] => (k, Ok tt)
  | x :: r =>
      match mem_line v4 x with
      | Ok b => mem_lines_to v4 r (fst (wr k b))
      | Err e => (k, Err e)
      | Panic => (k, Panic)
      | OutOfFuel => (k, OutOfFuel)
      end
  end.
(** db/format/memip/packer.go:13-48 pack *)
Definition memip_to (d : HData) (k : sink) : sink * res (HData * option error) :=
  let c := contents d in
  let offs := fieldOffsets (dFields c) in
  match dIps c with
  | [] => (k, Panic)
  | row :: rest =>
      match (let* values := covertValues offs (fvals row) in
             let* r := NewRange (cidr row) in
             mem_merge offs r values rest) with
      | Ok l =>
          let '(k, x) := mem_lines_to (vIpType (dVersion c) =? 1)%Z l k in
          (k, let* _ := x in Ok (d, None))
      | Err e => (k, Err e)
      | Panic => (k, Panic)
      | OutOfFuel => (k, OutOfFuel)
      end
  end.
(** The packers the converter has. *)
(* cmd/converter/main.go:13-16 *)
Definition packersTo (E : env) : list (bytes * (HData -> sink -> sink * res (HData * option error))) :=
  [(str ".scan", plain_to E); (str ".memip", memip_to); (str ".ipdb", ipdb_to E)].

(** What happens to the files: a file is created (or emptied), a byte is added to it. *)
(* os.Create, os.File.Write at db/convert/packer.go:16-23 *)
Inductive effect := Create (p : bytes) | Put (p : bytes) (b : byte).
(* os.Create, os.File.Write at db/convert/packer.go:16-23 *)
Definition effect1 (fs : files) (e : effect) : files :=
  match e with
  | Create p => set_file fs p []
  | Put p b => set_file fs p (match fs p with Some c => c ++ [b] | None => [b] end)
  end.
(* os.Create, os.File.Write at db/convert/packer.go:16-23 *)
Definition effects (fs : files) (l : list effect) : files := fold_left effect1 l fs.

(** db/convert/packer.go:15-23 PackFile, 34-42 PackWriter *)
Definition PackFileE (E : env) (can_create : bool) (room : nat) (o : bytes) (d : HData) : list effect * res (HData * option error) :=
  if negb can_create then ([], Ok (d, Some (ErrOther (str "create"))))
  else match assoc (path_ext o) (packersTo E) with
       | None => ([Create o], Ok (d, Some ErrUnsupportedFormat))
       | Some f => let '(k, x) := f d (mkSink [] room) in (Create o :: map (Put o) (kHolds k), x)
       end.
(** cmd/converter/main.go:57-65 *)
Fixpoint write_outputsE (E : env) (can_create : bytes -> bool) (room : bytes -> nat) (outputs : list bytes) (d : HData) : list effect * res (option error) :=
  match outputs with
  | [] => ([], Ok None)
  | o :: r =>
      let '(es, x) := PackFileE E (can_create o) (room o) o d in
      match x with
      | Ok (d', None) => let '(es', y) := write_outputsE E can_create room r d' in (es ++ es', y)
      | Ok (_, Some e) => (es, Ok (Some e))
      | Err e => (es, Err e)
      | Panic => (es, Panic)
      | OutOfFuel => (es, OutOfFuel)
      end
  end.
(** cmd/converter/main.go:20-66 main, after the flags are parsed: what it does to the files one
    after the other, and the error it logs (None when it is done) or a crash *)
Definition converterRun (E : env) (ipList : list bytes) order (grow : nat -> nat) (can_create : bytes -> bool) (room : bytes -> nat) (fs : files)
    (input output rule line : bytes) (replace : bool) : list effect * res (option error) :=
  match line_db E ipList fs line replace with
  | Ok q =>
      match DumpFile (converterFormats E) input (fs input) (converterRule rule) (converterOps order grow q) with
      | Ok d => write_outputsE E can_create room (split x2c output) d
      | Err e => ([], Ok (Some e))
      | Panic => ([], Panic)
      | OutOfFuel => ([], OutOfFuel)
      end
  | Err e => ([], Ok (Some e))
  | Panic => ([], Panic)
  | OutOfFuel => ([], OutOfFuel)
  end.
