(** Model of the packages that put the formats together: /repo/db/format/formats.go and
    the init.go files, /repo/db/query/query.go, /repo/db/convert/dumper.go and packer.go,
    /repo/cmd/converter/main.go and /repo/cmd/server/server.go. *)
From Verif Require Import Base NetIP IpNet Inf Ipdb Export Operate NetText Plain Memip AwDecode AwTree.
Open Scope nat_scope.

(* ------------------------------------------------------------------ *)
(** * path.Ext *)
(** Go path.Ext: from the last dot of the last path element *)
(* path.Ext, called from db/query/query.go:25, db/convert/dumper.go:20, db/convert/packer.go:21 *)
Fixpoint ext_loop (rev : bytes) (acc : bytes) : bytes :=
  match rev with
  | [] => []
  | c :: r => if byte_eqb c x2f then [] else if byte_eqb c x2e then c :: acc else ext_loop r (c :: acc)
  end.
(* path.Ext, called from db/query/query.go:25, db/convert/dumper.go:20, db/convert/packer.go:21 *)
Definition path_ext (p : bytes) : bytes := ext_loop (rev p) [].

(* ------------------------------------------------------------------ *)
(** * formats.go *)
(** formats.go:31-35 the three maps (an assignment to a Go map puts the pair in front;
    the first pair of a key is the one in force). *)
Record registry (D Q P : Type) := mkReg { dumpFormats : list (bytes * D); queryFormats : list (bytes * Q); packFormats : list (bytes * P) }.
Arguments mkReg {D Q P}. Arguments dumpFormats {D Q P}. Arguments queryFormats {D Q P}. Arguments packFormats {D Q P}.
Definition noFormats {D Q P} : registry D Q P := mkReg [] [] [].
(** formats.go:7-17 *)
Definition RegisterDumpFormat {D Q P} (ext : bytes) (create : D) (r : registry D Q P) : registry D Q P :=
  mkReg ((ext, create) :: dumpFormats r) (queryFormats r) (packFormats r).
Definition RegisterQueryFormat {D Q P} (ext : bytes) (create : Q) (r : registry D Q P) : registry D Q P :=
  mkReg (dumpFormats r) ((ext, create) :: queryFormats r) (packFormats r).
Definition RegisterPackFormat {D Q P} (ext : bytes) (create : P) (r : registry D Q P) : registry D Q P :=
  mkReg (dumpFormats r) (queryFormats r) ((ext, create) :: packFormats r).
(** formats.go:19-29; nil is None *)
Definition GetDumpFormat {D Q P} (r : registry D Q P) (ext : bytes) : option D := assoc ext (dumpFormats r).
Definition GetQueryFormat {D Q P} (r : registry D Q P) (ext : bytes) : option Q := assoc ext (queryFormats r).
Definition GetPackFormat {D Q P} (r : registry D Q P) (ext : bytes) : option P := assoc ext (packFormats r).

(* ------------------------------------------------------------------ *)
(** * The handlers *)
(** What is outside the model: the JSON library, the clock, the growth of slices; and the
    fuel of the loops that may not end. *)
(* outside calls of db/format/ipdb/writer.go:90, db/format/ipdb/reader.go:54, db/format/plain/packer.go:14, db/format/plain/dumper.go:47 *)
Record env := mkEnv {
  jMeta : MetaData -> bytes; jUnMeta : bytes -> option MetaData;
  jVer : VersionInfo -> bytes; jUnVer : bytes -> option (option VersionInfo);
  eNow : Z; eClock : bytes; eToday : bytes; eFuel : nat; eGrow : nat -> nat }.

(** db/inf/db_inf.go:24-30 Query: the two implementations *)
Inductive queryDb := QIpdb (r : Reader) (c : QCache) | QAwdb (r : awReader).
(** a call's results (info, mask, err), nil being None; Panic and OutOfFuel as always *)
(* results of db/query/query.go:95 Query *)
Definition goresult := res (option IpInfo * nat * option error).
(* results of db/query/query.go:95-103 *)
Definition triple (x : res (IpInfo * nat)) : goresult :=
  match x with
  | Ok (i, m) => Ok (Some i, m, None)
  | Err e => Ok (None, 0, Some e)
  | Panic => Panic
  | OutOfFuel => OutOfFuel
  end.
(** ipdb/querier.go:36-39, awdb/querier.go:35-50 *)
Definition q_query (q : queryDb) (ip : bytes) : goresult :=
  match q with
  | QIpdb r c => triple (Query r c ip)
  | QAwdb r => triple (aw_query r ip)
  end.
(** ipdb/querier.go:23-34 (the empty text is skipped, net.ParseIP of the others),
    awdb/querier.go:63-64 *)
Definition cache_ip (s : bytes) : option bytes :=
  if is_nil s then None else Some (match ParseIP s with Some ip => ip | None => [] end).
Definition q_build (q : queryDb) (ipList : list bytes) : res queryDb :=
  match q with
  | QIpdb r c => let* c := BuildCache r c (map cache_ip ipList) in Ok (QIpdb r c)
  | QAwdb r => Ok (QAwdb r)
  end.
(** VersionInfo *)
(* db/query/query.go:105-107 VersionInfo *)
Definition q_version (q : queryDb) : VersionInfo :=
  match q with QIpdb r _ => version r | QAwdb r => aw_version r end.

(** The slices of a dataset fresh from a dump (export.go:205-239, plain/dumper.go:113-135,
    prevInfo): a row whose values equal those of the row before shares its array; an array
    has [spare] unused cells (left open). *)
Fixpoint fresh_rows (k : nat) (spare : nat -> nat) (prev : option (list bytes)) (l : list IpRaw) : list hrow * heap :=
  match l with
  | [] => ([], [])
  | x :: r =>
      if match prev with Some v => strs_eqb (fvals x) v | None => false end
      then let '(rows, h) := fresh_rows k spare prev r in ((cidr x, mkSlc (k - 1) (length (fvals x))) :: rows, h)
      else let '(rows, h) := fresh_rows (S k) spare (Some (fvals x)) r in
           ((cidr x, mkSlc k (length (fvals x))) :: rows, (fvals x ++ repeat [] (spare k)) :: h)
  end.
Definition fresh (spare : nat -> nat) (d : IpData) : HData :=
  let '(rows, h) := fresh_rows 0 spare None (dIps d) in mkH (dFields d) (dVersion d) rows h.
(** memip/dumper.go:137-146: the rows made from one range share its values *)
Fixpoint mem_splitH (k : nat) (l : list (Range * list bytes)) : res (list hrow) :=
  match l with
  | [] => Ok []
  | (r, v) :: rest =>
      let* nets := IPNets r in
      let* out := mem_splitH (S k) rest in
      Ok (map (fun n => (n, mkSlc k (length v))) nets ++ out)
  end.
Definition mdumpH (now : Z) (today : bytes) (data : bytes) : res HData :=
  let lines := scan_lines data in
  let* rs := mem_rows lines in
  let* rows := mem_splitH 0 rs in
  let* l0 := idx lines 0 in
  Ok (mkH memFields
        (mkVersion (if has_colon l0 then 2 else 1)%Z (N.of_nat (length rows) mod 2 ^ 32)%N now today [] [])
        rows (map snd rs)).

(** ipdb/packer.go:12-15 and writer.go:123-140 on the caller's slices: the continent is
    replaced in place, after the checks of insert *)
Definition converts (w : Writer) (n : IPNet) : res bool :=
  let '(mask, _) := mask_size (nMask n) in
  let* ' (nodes, node, bit, ok) := Nodes (wNode w) (nIP n) mask in
  if negb ok then Ok false else let* e := nget nodes node bit in Ok (negb (0 <? e)%Z).
Fixpoint insert_allH (w : Writer) (h : heap) (rows : list hrow) : res (Writer * heap) :=
  match rows with
  | [] => Ok (w, h)
  | (n, s) :: r =>
      let* conv := converts w n in
      let* ' (w', _) := insert w n (view h s) in
      let h := match wCont w with
               | Some i => if conv then hset h s i (cont_code (nth i (view h s) [])) else h
               | None => h
               end in
      insert_allH w' h r
  end.
Definition packH (marshal : MetaData -> bytes) (now : Z) (d : HData) : res (bytes * HData) :=
  let* ' (w, h) := insert_allH (pack_writer now (contents d)) (hHeap d) (hRows d) in
  Ok (Save marshal w, mkH (hFields d) (hVersion d) (hRows d) h).

Definition dumpHandler := bytes -> option Exporter -> res HData.
Definition queryHandler := bytes -> res queryDb.
Definition packHandler := HData -> res (bytes * HData).
Definition formats := registry dumpHandler queryHandler packHandler.
Definition fresh_of (spare : nat -> nat) (x : res IpData) : res HData := let* d := x in Ok (fresh spare d).

(** db/field/export/export.go:99,129 (with a rule the values fill a slice made with their number),
    214-225 (without one they are appended one by one: the unused cells are left open);
    db/format/plain/dumper.go:113-124 only has values from a rule *)
Definition spare_of (E : env) (ept : option Exporter) : nat -> nat :=
  match ept with Some _ => fun _ => 0 | None => eGrow E end.

(** awdb/init.go, ipdb/init.go, memip/init.go, plain/init.go *)
(* db/format/awdb/init.go:5-8 *)
Definition init_awdb (E : env) (r : formats) : formats :=
  RegisterQueryFormat (str ".awdb") (fun data => let* r := aw_open data in Ok (QAwdb r))
    (RegisterDumpFormat (str ".awdb") (fun data ept => fresh_of (spare_of E ept) (aw_dump (eFuel E) data ept)) r).
(* db/format/ipdb/init.go:5-11 *)
Definition init_ipdb (E : env) (r : formats) : formats :=
  RegisterPackFormat (str ".ipdb") (packH (jMeta E) (eNow E))
    (RegisterQueryFormat (str ".ipdb") (fun data => let* ' (r, c) := newQuerier (jUnMeta E) data in Ok (QIpdb r c))
      (RegisterDumpFormat (str ".ipdb") (fun data ept => fresh_of (spare_of E ept) (Export.dump (jUnMeta E) (eFuel E) data ept)) r)).
(* db/format/memip/init.go:10-15 *)
Definition init_memip (E : env) (r : formats) : formats :=
  RegisterPackFormat (str ".memip") (fun d => let* t := mpack (contents d) in Ok (t, d))
    (RegisterDumpFormat (str ".memip") (fun data _ => mdumpH (eNow E) (eToday E) data) r).
(* db/format/plain/init.go:5-10 *)
Definition init_plain (E : env) (r : formats) : formats :=
  RegisterPackFormat (str ".scan") (fun d => Ok (Plain.pack (jVer E) (eClock E) d))
    (RegisterDumpFormat (str ".scan") (fun data ept => fresh_of (fun _ => 0) (Plain.dump (jUnVer E) data ept)) r).
(** The programs import the packages: cmd/converter all four, cmd/server and cmd/simple
    awdb and ipdb (Go initialises packages in the order of their import paths). *)
(* cmd/converter/main.go:13-16 *)
Definition converterFormats (E : env) : formats := init_plain E (init_memip E (init_ipdb E (init_awdb E noFormats))).
(* cmd/server/main.go:7-8, cmd/simple/main.go:9-10 *)
Definition serverFormats (E : env) : formats := init_ipdb E (init_awdb E noFormats).

(* ------------------------------------------------------------------ *)
(** * query.go *)
Section Fac.
Variable reg : formats.

(** db/query/query.go:29-40 NewDbFromBytes; [ipList] is cache.go's list, split *)
Definition NewDbFromBytes (ipList : list bytes) (kind b : bytes) : res queryDb :=
  match GetQueryFormat reg kind with
  | None => Err ErrUnsupportedFormat
  | Some create => let* q := create b in q_build q ipList
  end.
(** db/query/query.go:20-27 NewDb; [content] is what os.ReadFile gives, None on error *)
Definition NewDb (ipList : list bytes) (file : bytes) (content : option bytes) : res queryDb :=
  match content with
  | None => Panic
  | Some b => NewDbFromBytes ipList (path_ext file) b
  end.

(** db/query/query.go:95-102 Query *)
Definition DbQuery (q : queryDb) (ip : bytes) : goresult :=
  let* ' (info, mask, err) := q_query q ip in
  match err with
  | Some e => Ok (None, 0, Some e)
  | None => Ok (info, mask, None)
  end.
(** db/query/query.go:42-48 QueryStr *)
Definition QueryStr (q : queryDb) (s : bytes) : goresult :=
  match ParseIP s with
  | None => Ok (None, 0, Some (ErrOther (str "invalid ip: " ++ s)))
  | Some ip => DbQuery q ip
  end.
(** db/query/query.go:50-53 QueryU32 *)
Definition QueryU32 (q : queryDb) (i : N) : goresult := DbQuery q (Uint32ToIPv4 i).
(** db/query/query.go:55-93 CheckV4, CheckV6: query, then compare the country *)
Definition check1 (q : queryDb) (s country : bytes) (k : res (option error)) : res (option error) :=
  match ParseIP s with
  | None => Panic                    (* does not happen: the texts are addresses *)
  | Some ip =>
      let* ' (info, _, err) := DbQuery q ip in
      match err with
      | Some e => Ok (Some e)
      | None => match info with
                | None => Panic      (* info.Country of nil *)
                | Some i => if bytes_eqb (iCountry i) country then k else Ok (Some ErrCheckFailed)
                end
      end
  end.
(* db/query/query.go:55-73 CheckV4 *)
Definition CheckV4 (q : queryDb) : res (option error) :=
  check1 q (str "8.8.8.8") (str "美国") (check1 q (str "119.29.29.29") (str "中国") (Ok None)).
(* db/query/query.go:75-93 CheckV6 *)
Definition CheckV6 (q : queryDb) : res (option error) :=
  check1 q (str "2001:4860:4860::8888") (str "美国") (check1 q (str "2606:4700:4700::1111") (str "美国") (Ok None)).

(* ------------------------------------------------------------------ *)
(** * server.go *)
(** cmd/server/server.go:21-30: GET of a path other than /version; [None] is the status 404,
    [Some i] the record that is sent as JSON *)
Definition serve (q : queryDb) (path : bytes) : res (option IpInfo) :=
  match path with
  | [] => Panic                        (* Path[1:] *)
  | _ :: ip =>
      let* ' (i, _, err) := QueryStr q ip in
      match err with Some _ => Ok None | None => Ok i end
  end.

(* ------------------------------------------------------------------ *)
(** * convert *)
(** db/convert/dumper.go:14-37 DumpFile *)
Definition Op := HData -> res HData.
Fixpoint apply_ops (ops : list Op) (d : HData) : res HData :=
  match ops with
  | [] => Ok d
  | op :: r => let* d := op d in apply_ops r d
  end.
Definition DumpFile (file : bytes) (content : option bytes) (rule : bytes) (ops : list Op) : res HData :=
  match content with
  | None => Err (ErrOther (str "read"))
  | Some data =>
      match GetDumpFormat reg (path_ext file) with
      | None => Err ErrUnsupportedFormat
      | Some create => let* d := create data (ParseRule rule) in apply_ops ops d
      end
  end.
(** db/convert/packer.go:34-42 PackWriter into a buffer, 25-32 PackBytes: what is written and the
    dataset afterwards.  (With a buffer nothing is written before an error.) *)
Definition PackBytes (kind : bytes) (d : HData) : res (bytes * HData) :=
  match GetPackFormat reg kind with
  | None => Err ErrUnsupportedFormat
  | Some create => create d
  end.
(** db/convert/packer.go:15-23 PackFile: the new content of the file (None: the file is not
    touched), the dataset afterwards and the error *)
Definition PackFile (can_create : bool) (file : bytes) (d : HData) : res (option bytes * HData * option error) :=
  if negb can_create then Ok (None, d, Some (ErrOther (str "create")))
  else match PackBytes (path_ext file) d with
       | Ok (b, d') => Ok (Some b, d', None)
       | Err e => Ok (Some [], d, Some e)
       | Panic => Panic
       | OutOfFuel => OutOfFuel
       end.
(** converter/main.go:58-65: all outputs, up to the first error *)
Fixpoint pack_outputs (outputs : list bytes) (d : HData) : res (list (bytes * bytes) * HData) :=
  match outputs with
  | [] => Ok ([], d)
  | o :: r =>
      let* ' (b, d') := PackBytes (path_ext o) d in
      let* ' (rest, d'') := pack_outputs r d' in
      Ok ((o, b) :: rest, d'')
  end.
End Fac.

(** operate/operate.go DefaultOperates, main.go:31-49 the operations of the converter;
    [line] is the line database and whether to replace *)
Definition DefaultOperates (order : nat -> list (bytes * list bytes) -> list (bytes * list bytes)) : list Op :=
  [fun d => Ok (ReplaceShortage NormalizedMap d); fun d => TrimAsnIspDup order d; MergeNearNetwork].
(** db/field/operate/line.go:76-79: line.Query of a row's first address, the network ignored *)
Definition line_query (q : queryDb) (ip : bytes) : res IpInfo :=
  match q_query q ip with
  | Ok (Some i, _, None) => Ok i
  | Ok (_, _, Some e) => Err e
  | Ok (None, _, None) => Panic
  | Err e => Err e
  | Panic => Panic
  | OutOfFuel => OutOfFuel
  end.
(** db/field/operate/line.go:14,96: fmt.Sprintf("%s-%d", Version, Build) of the line database *)
Definition line_version (q : queryDb) : bytes := vVersion (q_version q) ++ x2d :: dec_int (vBuild (q_version q)).
(** cmd/converter/main.go:28-44: the operation of the line database *)
Definition line_ops (grow : nat -> nat) (line : option (queryDb * bool)) : list Op :=
  match line with
  | None => []
  | Some (q, false) => [fun d => AttachLineByCidr grow (line_query q) (line_version q) d]
  | Some (q, true) => [fun d => ReplaceLineByCidr (line_query q) (line_version q) d]
  end.
(** cmd/converter/main.go:27-45: all operations *)
Definition converterOps (order : nat -> list (bytes * list bytes) -> list (bytes * list bytes)) (grow : nat -> nat)
    (line : option (queryDb * bool)) : list Op :=
  DefaultOperates order ++ line_ops grow line ++ [AttachDistrict grow].
