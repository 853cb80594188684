(** Model of /repo/db/format/awdb: node.go, reader.go, traverse.go, querier.go,
    dumper.go, fields.go.  Go uint is 64 bits wide. *)
From Verif Require Export AwDecode Inf.
From Verif Require Import Export.
Open Scope N_scope.

(* uint arithmetic of db/format/awdb/reader.go:44-100,281-288 on 64-bit machines *)
Definition u64 (n : N) : N := n mod 2 ^ 64.

(* ------------------------------------------------------------------ *)
(** node.go: b[i] as a number *)
(* db/format/awdb/node.go:12-46 *)
Definition nb (b : bytes) (i : N) : res N := let* x := idx b (N.to_nat i) in Ok (b2n x).

(** db/format/awdb/node.go:12-18 nodeReader24; a byte shifted left by 8k is a multiple of 256^k, and the
    parts joined with | do not overlap, so | is + *)
Definition readLeft24 (b : bytes) (o : N) : res N :=
  let* x := nb b o in let* y := nb b (o + 1) in let* z := nb b (o + 2) in Ok (x * 2 ^ 16 + y * 2 ^ 8 + z).
Definition readRight24 (b : bytes) (o : N) : res N :=
  let* x := nb b (o + 3) in let* y := nb b (o + 4) in let* z := nb b (o + 5) in Ok (x * 2 ^ 16 + y * 2 ^ 8 + z).
(** db/format/awdb/node.go:24-30 nodeReader28; (c & 0xF0) << 20 is (c/16) << 24, c & 0x0F is c mod 16 *)
Definition readLeft28 (b : bytes) (o : N) : res N :=
  let* c := nb b (o + 3) in let* x := nb b o in let* y := nb b (o + 1) in let* z := nb b (o + 2) in
  Ok (c / 16 * 2 ^ 24 + x * 2 ^ 16 + y * 2 ^ 8 + z).
Definition readRight28 (b : bytes) (o : N) : res N :=
  let* c := nb b (o + 3) in let* x := nb b (o + 4) in let* y := nb b (o + 5) in let* z := nb b (o + 6) in
  Ok (c mod 16 * 2 ^ 24 + x * 2 ^ 16 + y * 2 ^ 8 + z).
(** db/format/awdb/node.go:36-42 nodeReader32 *)
Definition readLeft32 (b : bytes) (o : N) : res N :=
  let* w := nb b o in let* x := nb b (o + 1) in let* y := nb b (o + 2) in let* z := nb b (o + 3) in
  Ok (w * 2 ^ 24 + x * 2 ^ 16 + y * 2 ^ 8 + z).
Definition readRight32 (b : bytes) (o : N) : res N :=
  let* w := nb b (o + 4) in let* x := nb b (o + 5) in let* y := nb b (o + 6) in let* z := nb b (o + 7) in
  Ok (w * 2 ^ 24 + x * 2 ^ 16 + y * 2 ^ 8 + z).

(* ------------------------------------------------------------------ *)
(** db/format/awdb/reader.go:28-37 Reader: the file, the node table, the data section, ... *)
Record awReader := mkAw {
  wBuf : bytes; wNodes : bytes; wData : bytes; wMeta : metadata; wV4Start : N; wV4Depth : nat }.

(** nodeReader.readLeft / readRight of the chosen reader (db/format/awdb/reader.go:78-88).
    [b] false is left.  The argument is node * nodeOffsetMult in uint arithmetic. *)
Definition read (rs : N) (nodes : bytes) (b : bool) (node : N) : res N :=
  let o := u64 (node * (rs / 4)) in
  if rs =? 24 then (if b then readRight24 else readLeft24) nodes o
  else if rs =? 28 then (if b then readRight28 else readLeft28) nodes o
  else (if b then readRight32 else readLeft32) nodes o.

(** uint(1) & (uint(ip[i>>3]) >> (7 - (i % 8))) *)
(* db/format/awdb/reader.go:260 *)
Definition aw_bit (ip : bytes) (i : nat) : res bool :=
  let* x := idx ip (i / 8) in Ok (N.odd (N.shiftr (b2n x) (N.of_nat (7 - i mod 8)))).

(** db/format/awdb/reader.go:255-271 traverseTree: [k] rounds left, i done *)
Fixpoint traverse_loop (rs nc : N) (nodes : bytes) (ip : bytes) (k i : nat) (node : N) : res (N * nat) :=
  match k with
  | O => Ok (node, i)
  | S k' =>
      if node <? nc then
        let* bit := aw_bit ip i in
        let* next := read rs nodes bit node in
        traverse_loop rs nc nodes ip k' (S i) next
      else Ok (node, i)
  end.
Definition traverseTree (r : awReader) (ip : bytes) (node : N) (bitCount : nat) : res (N * nat) :=
  traverse_loop (aRecordSize (wMeta r)) (aNodeCount (wMeta r)) (wNodes r) ip bitCount 0 node.

(** db/format/awdb/reader.go:101-115 setIPv4Start: k rounds left, i done; only for IP version 6 *)
Fixpoint v4_loop (rs nc : N) (nodes : bytes) (k i : nat) (node : N) : res (N * nat) :=
  match k with
  | O => Ok (node, i)
  | S k' => if node <? nc then let* next := read rs nodes false node in v4_loop rs nc nodes k' (S i) next
            else Ok (node, i)
  end.

(** bytes.LastIndex *)
(* part of bytes.LastIndex, called from db/format/awdb/reader.go:47 *)
Fixpoint is_prefix (p s : bytes) : bool :=
  match p, s with
  | [], _ => true
  | a :: p', b :: s' => byte_eqb a b && is_prefix p' s'
  | _, _ => false
  end.
(* bytes.LastIndex, called from db/format/awdb/reader.go:47 *)
Fixpoint lastIndex (s sep : bytes) : option nat :=
  match s with
  | [] => if is_prefix sep [] then Some O else None
  | _ :: r => match lastIndex r sep with
              | Some i => Some (S i)
              | None => if is_prefix sep s then Some O else None
              end
  end.
(** db/format/awdb/reader.go:21 metadataStartMarker *)
Definition marker : bytes := [xab; xcd; xef] ++ str "ipplus360.com".

(** db/format/awdb/reader.go:44-99 FromBytes.  Fuel: longer than the buffer decoded. *)
Definition FromBytes (buffer : bytes) : res awReader :=
  if (length buffer <? 2000)%nat then Panic                 (* buffer[detectOffset:] *)
  else
    let detect := (length buffer - 2000)%nat in
    let metaIn := skipn detect buffer in
    match lastIndex metaIn marker with
    | None => Err ErrInvalidDb
    | Some ms =>
        let mbuf := skipn (ms + length marker) metaIn in
        let* meta := decodeMeta mbuf (S (length mbuf)) (S (S (length mbuf))) max_depth 0 in
        let metadataStart := (ms + detect)%nat in
        let searchTreeSize := u64 (aNodeCount meta * aRecordSize meta) / 4 in
        if N.of_nat metadataStart <? searchTreeSize + 16 then Err ErrInvalidDb
        else
          let* data := slice buffer (N.to_nat (searchTreeSize + 16)) metadataStart in
          let* nodes := slice buffer 0 (N.to_nat searchTreeSize) in
          let rs := aRecordSize meta in
          if (rs =? 24) || (rs =? 28) || (rs =? 32) then
            if aIPVersion meta =? 6 then
              let* ' (node, i) := v4_loop rs (aNodeCount meta) nodes 96 0 0 in
              Ok (mkAw buffer nodes data meta node i)
            else Ok (mkAw buffer nodes data meta 0 0)
          else Err ErrInvalidDb
    end.

(** db/format/awdb/reader.go:223-253 lookupPointer: pointer (0 = no data), prefix length, address used *)
Definition lookupPointer (r : awReader) (ip : bytes) : res (N * nat * bytes) :=
  if is_nil ip then Err (ErrOther (str "IP passed to Lookup cannot be nil"))
  else
    let ip := if is_nil (to4 ip) then ip else to4 ip in
    if (length ip =? 16)%nat && (aIPVersion (wMeta r) =? 4) then Err (ErrOther (str "IPv6 address in an IPv4-only database"))
    else
      let bitCount := (length ip * 8)%nat in
      let node := if (bitCount =? 32)%nat then wV4Start r else 0 in
      let* ' (node, prefixLength) := traverseTree r ip node bitCount in
      if node =? aNodeCount (wMeta r) then Ok (0, prefixLength, ip)
      else if aNodeCount (wMeta r) <? node then Ok (node, prefixLength, ip)
      else Err ErrInvalidDb.

(** db/format/awdb/reader.go:173-189 cidr *)
Definition aw_cidr (r : awReader) (ip : bytes) (prefixLength : nat) : IPNet :=
  if (aIPVersion (wMeta r) =? 6) && (length ip =? 4)%nat && negb (wV4Depth r =? 96)%nat
  then mkNet IPv6zero (CIDRMask (Z.of_nat (wV4Depth r)) 128)
  else
    let mask := CIDRMask (Z.of_nat prefixLength) (Z.of_nat (length ip) * 8) in
    mkNet (ip_mask ip mask) mask.

(** db/format/awdb/reader.go:273-288 retrieveData, resolveDataPointer, 214-221 decode *)
Definition resolveDataPointer (r : awReader) (pointer : N) : res N :=
  let resolved := Z.to_N ((Z.of_N pointer - Z.of_N (aNodeCount (wMeta r)) - 16) mod 2 ^ 64)%Z in
  if N.of_nat (length (wBuf r)) <=? resolved then Err ErrInvalidDb else Ok resolved.
Definition retrieveData (r : awReader) (pointer : N) : res value :=
  let* offset := resolveDataPointer r pointer in
  let* ' (v, _) := decode (wData r) (S (length (wData r))) max_depth KAny offset in Ok v.

(** db/format/awdb/reader.go:143-155 LookupNetwork into an empty interface: None if there is no data *)
Definition LookupNetwork (r : awReader) (ip : bytes) : res (IPNet * option value) :=
  let* ' (pointer, prefixLength, ip) := lookupPointer r ip in
  let network := aw_cidr r ip prefixLength in
  if pointer =? 0 then Ok (network, None)
  else let* v := retrieveData r pointer in Ok (network, Some v).

(** db/format/awdb/reader.go:123-132 Lookup into an empty interface: None leaves the result alone *)
Definition Lookup (r : awReader) (ip : bytes) : res (option value) :=
  let* ' (pointer, _, _) := lookupPointer r ip in
  if pointer =? 0 then Ok None else let* v := retrieveData r pointer in Ok (Some v).
(** db/format/awdb/reader.go:162-171 LookupOffset; NotFound is ^uintptr(0) (db/format/awdb/reader.go:16) *)
Definition NotFound : N := 2 ^ 64 - 1.
Definition LookupOffset (r : awReader) (ip : bytes) : res N :=
  let* ' (pointer, _, _) := lookupPointer r ip in
  if pointer =? 0 then Ok NotFound else resolveDataPointer r pointer.
(** db/format/awdb/reader.go:207-221 Decode into an empty interface *)
Definition Decode (r : awReader) (offset : N) : res value :=
  let* ' (v, _) := decode (wData r) (S (length (wData r))) max_depth KAny offset in Ok v.

(* ------------------------------------------------------------------ *)
(** db/format/awdb/traverse.go:8-12 netNode (the network not yet visited) *)
Record netNode := mkNN { nnIp : bytes; nnBit : nat; nnPtr : N }.

(** ipRight[bit>>3] |= 1 << (7 - bit%8) on a copy *)
(* db/format/awdb/traverse.go:88-93 *)
Definition set_bit (ip : bytes) (bit : nat) : bytes :=
  match nth_error ip (bit / 8) with
  | Some x => upd ip (bit / 8) (n2b (N.lor (b2n x) (2 ^ N.of_nat (7 - bit mod 8))))
  | None => ip
  end.

(* what one round of the inner loop of db/format/awdb/traverse.go:76-113 Next ends with *)
Inductive nextOut := Found (n : netNode) (nodes : list netNode) | Empty (nodes : list netNode) | Bad.

(** db/format/awdb/traverse.go:81-106 Next, the inner loop.  The stack has its top first.  The fuel is
    one more than the address has bits left, so it does not run out. *)
Fixpoint descend (fuel : nat) (r : awReader) (node : netNode) (nodes : list netNode) : res nextOut :=
  match fuel with
  | O => OutOfFuel
  | S k =>
      let nc := aNodeCount (wMeta r) in
      if nnPtr node =? nc then Ok (Empty nodes)
      else if nc <? nnPtr node then Ok (Found node nodes)
      else if (length (nnIp node) <=? nnBit node / 8)%nat then Ok Bad
      else
        let* right := read (aRecordSize (wMeta r)) (wNodes r) true (nnPtr node) in
        let* left := read (aRecordSize (wMeta r)) (wNodes r) false (nnPtr node) in
        descend k r (mkNN (nnIp node) (S (nnBit node)) left)
          (mkNN (set_bit (nnIp node) (nnBit node)) (S (nnBit node)) right :: nodes)
  end.
(** db/format/awdb/traverse.go:76-110 Next, the outer loop: Some (Some (n, rest)) is true with lastNode n,
    Some None is false without error, None is false with Err set *)
Fixpoint Next (fuel : nat) (r : awReader) (nodes : list netNode) : res (option (option (netNode * list netNode))) :=
  match fuel with
  | O => OutOfFuel
  | S k =>
      match nodes with
      | [] => Ok (Some None)
      | node :: rest =>
          let* o := descend (S (8 * length (nnIp node) - nnBit node)) r node rest in
          match o with
          | Found n nodes' => Ok (Some (Some (n, nodes')))
          | Empty nodes' => Next k r nodes'
          | Bad => Ok None
          end
      end
  end.
(** for n.Next() { ... }: the visited nodes and whether Err() is nil *)
(* a caller of db/format/awdb/traverse.go:76-113 Next, 115-124 Network, 127-129 Err *)
Fixpoint iterate (fuel : nat) (r : awReader) (nodes : list netNode) : res (list netNode * bool) :=
  match fuel with
  | O => OutOfFuel
  | S k =>
      let* o := Next (S k) r nodes in
      match o with
      | None => Ok ([], false)
      | Some None => Ok ([], true)
      | Some (Some (n, nodes')) => let* ' (l, ok) := iterate k r nodes' in Ok (n :: l, ok)
      end
  end.
(** db/format/awdb/traverse.go:51-71 NetworksWithin *)
Definition NetworksWithin (r : awReader) (network : IPNet) : res (list netNode) :=
  let ip := nIP network in
  let prefixLength := fst (mask_size (nMask network)) in
  let v6 := (aIPVersion (wMeta r) =? 6) && (length ip =? 4)%nat in
  let ip := if v6 then to16 ip else ip in
  let prefixLength := if v6 then (prefixLength + 96)%nat else prefixLength in
  let* ' (pointer, bit) := traverseTree r ip 0 prefixLength in
  Ok [mkNN ip bit pointer].
(** db/format/awdb/traverse.go:22-40 Networks *)
Definition Networks (r : awReader) : res (list netNode) :=
  if aIPVersion (wMeta r) =? 6 then NetworksWithin r (mkNet IPv6zero (CIDRMask 0 128))
  else NetworksWithin r (mkNet (repeat x00 4) (CIDRMask 0 32)).
(** db/format/awdb/traverse.go:115-124 Network *)
Definition Network (r : awReader) (n : netNode) : res (IPNet * value) :=
  let* v := retrieveData r (nnPtr n) in
  Ok (mkNet (nnIp n) (CIDRMask (Z.of_nat (nnBit n)) (Z.of_nat (length (nnIp n)) * 8)), v).

(* ------------------------------------------------------------------ *)
(** db/format/awdb/fields.go:132-142 IpType: 1 = v4, 2 = v6, 3 = both; db/format/awdb/reader.go:290-299 version *)
Definition aw_iptype (m : metadata) : Z := if aIPVersion m =? 4 then 1%Z else if aIPVersion m =? 6 then 2%Z else 3%Z.
Definition aw_version (r : awReader) : VersionInfo :=
  mkVersion (aw_iptype (wMeta r)) (aNodeCount (wMeta r) mod 2 ^ 32)
    (let b := Z.of_N (aBuild (wMeta r)) in if (b <? 2 ^ 63)%Z then b else (b - 2 ^ 64)%Z)
    (str "ipplus360" ++ aType (wMeta r)) (aLanguages (wMeta r)) [].

(** The map built by the assignments in order: the last one to a key counts. *)
(* map assignment in db/format/awdb/decoder.go:452-489 *)
Fixpoint final_map (m : list (bytes * value)) : list (bytes * value) :=
  match m with
  | [] => []
  | (k, v) :: r => if existsb (fun kv => bytes_eqb (fst kv) k) r then final_map r else (k, v) :: final_map r
  end.
(** string(v.([]byte)) for every entry; the type assertion panics *)
(* db/format/awdb/querier.go:66-78 *)
Fixpoint strings_of (m : list (bytes * value)) : res (list (bytes * bytes)) :=
  match m with
  | [] => Ok []
  | (k, VStr s) :: r | (k, VBytes s) :: r => let* l := strings_of r in Ok ((k, s) :: l)
  | _ => Panic
  end.
(** db/format/awdb/querier.go:66-78 Find, db/format/awdb/dumper.go:63-75 find.  record.(map[string]interface{}) panics on
    nil and on anything else than a map. *)
Definition aw_find (r : awReader) (ip : bytes) : res (IPNet * list (bytes * bytes)) :=
  let* ' (ipNet, record) := LookupNetwork r ip in
  match record with
  | Some (VMap m) => let* data := strings_of (final_map m) in Ok (ipNet, data)
  | _ => Panic
  end.

(** data[k] of a Go map[string]string *)
(* map reads of db/format/awdb/querier.go:66-100 *)
Definition sget (k : bytes) (m : list (bytes * bytes)) : bytes :=
  match find (fun kv => bytes_eqb (fst kv) k) m with Some (_, v) => v | None => [] end.
(** db/format/awdb/querier.go:35-50 Query *)
Definition aw_query (r : awReader) (ip : bytes) : res (IpInfo * nat) :=
  let* ' (cidr, info) := aw_find r ip in
  Ok (mkInfo (sget (str "country") info) [] (sget (str "province") info) (sget (str "city") info)
        (sget (str "asnumber") info) (sget (str "isp") info) (sget (str "continent") info) (sget (str "line") info),
      fst (mask_size (nMask cidr))).
(** db/format/awdb/querier.go:52-61 check, db/format/awdb/dumper.go:48-57: net.ParseIP("8.8.8.8") *)
Definition aw_check (r : awReader) : res unit :=
  if Z.odd (aw_iptype (wMeta r)) then let* _ := aw_find r (IPv4 x08 x08 x08 x08) in Ok tt else Ok tt.
(** db/format/awdb/querier.go:21-33 newQuerier, db/format/awdb/dumper.go:34-46 NewDumper *)
Definition aw_open (data : bytes) : res awReader :=
  let* r := FromBytes data in let* _ := aw_check r in Ok r.

(* ------------------------------------------------------------------ *)
(** db/format/awdb/fields.go:110-119 Fields *)
Definition awFields : list bytes :=
  map str ["country"; "province"; "city"; "isp"; "asnumber"; "continent"; "line"; "district"]%string.
(** db/format/awdb/fields.go:122-130 CommonFieldsMap (the order of a Go map does not matter here) *)
Definition awFieldsMap : list (bytes * bytes) :=
  map (fun s => (str s, str s)) ["country"; "province"; "city"; "isp"; "asn"; "continent"; "line"]%string.
(** db/format/awdb/dumper.go:10-21 dump *)
Definition aw_dump (fuel : nat) (data : bytes) (ept : option Exporter) : res IpData :=
  let* r := aw_open data in
  let* ' (fields, rows) := BuildIPData fuel awFieldsMap awFields ept (aw_version r) (aw_find r) in
  Ok (mkData fields (aw_version r) rows).
