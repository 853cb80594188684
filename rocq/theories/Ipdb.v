(** Model of /repo/db/format/ipdb: writer.go, packer.go, fields.go, reader.go,
    querier.go.  encoding/json is a pair of functions given as arguments
    ([marshal], [unmarshal]); nothing is assumed about them here; Json.v models it and
    PropsJson.v discharges the premises about them. *)
From Verif Require Export Base NetIP Inf.
From Verif Require Import Date.
Open Scope Z_scope.

(* ------------------------------------------------------------------ *)
(** * fields.go *)

(** db/format/ipdb/fields.go:39-60 (those the code distinguishes) *)
Definition FieldCountryName := str "country_name".
Definition FieldRegionName := str "region_name".
Definition FieldCityName := str "city_name".
Definition FieldISPDomain := str "isp_domain".
Definition FieldContinentCode := str "continent_code".

(** db/format/ipdb/fields.go:87-100 CommonFieldsMap *)
Definition CommonFieldsMap : list (bytes * bytes) :=
  [ (fCountry, FieldCountryName); (fProvince, FieldRegionName); (fCity, FieldCityName);
    (fISP, FieldISPDomain); (fAsn, fAsn); (fContinent, FieldContinentCode);
    (fUTCOffset, str "utc_offset"); (fLatitude, str "latitude"); (fLongitude, str "longitude");
    (fChinaAdminCode, str "china_admin_code"); (fDistrict, fDistrict); (fLine, fLine) ].

(** db/format/ipdb/fields.go:105-114 MetaData.  Languages is a Go map as association list. *)
Record MetaData := mkMeta {
  mBuild : Z; mIPVersion : N; mLanguages : list (bytes * Z);
  mNodeCount : Z; mTotalSize : Z; mFields : list bytes; mVersion : bytes; mExtra : list bytes }.

(** db/format/ipdb/fields.go:116-126 covertFields *)
Definition covertFields (fields : list bytes) : list bytes :=
  map (fun f => match assoc f CommonFieldsMap with Some g => g | None => f end) fields.

(** db/format/ipdb/fields.go:128-136 IpType, 138-146 ipVersion, 148-156 buildMeta (the clock is
    the argument [now]). *)
Definition IpType (m : MetaData) : Z :=
  if (mIPVersion m =? 1)%N then 1 else if (mIPVersion m =? 2)%N then 2 else 3.
Definition ipVersion (v : VersionInfo) : N :=
  if vIpType v =? 1 then 1%N else if vIpType v =? 2 then 2%N else 3%N.
Definition buildMeta (now : Z) (v : VersionInfo) : MetaData :=
  mkMeta now (ipVersion v) [] 0 0 [] (vVersion v) (vExtra v).

(* ------------------------------------------------------------------ *)
(** * writer.go *)

(** db/format/ipdb/writer.go:35-41 Writer: a node is a pair of ints; 0 empty, >0 a node
    index, <0 minus the offset of a record. *)
Record Writer := mkWriter {
  wMeta : MetaData; wNode : list (Z * Z); wHash : list (bytes * Z); wChunk : bytes;
  wCont : option nat }.

(** strings.ToLower as far as comparing with an ASCII word matters (no other
    letter lower-cases to one of c,o,n,t,i,e): ASCII letters only. *)
(* called from db/format/ipdb/writer.go:52 *)
Definition lower (b : byte) : byte :=
  let n := b2n b in if (65 <=? n)%N && (n <=? 90)%N then n2b (n + 32)%N else b.

(** db/format/ipdb/writer.go:50-55: the last field that lower-cases to "continent". *)
Fixpoint last_continent (i : nat) (fs : list bytes) (acc : option nat) : option nat :=
  match fs with
  | [] => acc
  | f :: r => last_continent (S i) r
                (if bytes_eqb (map lower f) (str "continent") then Some i else acc)
  end.

(** db/format/ipdb/writer.go:44-64 NewWriter *)
Definition NewWriter (meta : MetaData) (languages : list (bytes * Z)) : Writer :=
  let langs := match languages with [] => [(str "CN", 0)] | _ => languages end in
  mkWriter (mkMeta (mBuild meta) (mIPVersion meta) langs (mNodeCount meta) (mTotalSize meta)
                   (mFields meta) (mVersion meta) (mExtra meta))
           [(0, 0)] [] [] (last_continent 0 (mFields meta) None).

(** db/format/ipdb/writer.go:201-212 IntToBinaryBE (16 and 32; anything else is empty) *)
Definition IntToBinaryBE (num : Z) (length : Z) : bytes :=
  if length =? 16 then be_enc 2 (Z.to_N (num mod 2 ^ 16))
  else if length =? 32 then be_enc 4 (Z.to_N (num mod 2 ^ 32)) else [].

(** p.node[node][indexBit] and the assignment to it *)
(* db/format/ipdb/writer.go:173-180 *)
Definition pair_get (p : Z * Z) (b : bool) : Z := if b then snd p else fst p.
(* db/format/ipdb/writer.go:142,175 *)
Definition pair_set (p : Z * Z) (b : bool) (v : Z) : Z * Z :=
  if b then (fst p, v) else (v, snd p).
(* db/format/ipdb/writer.go:119,173-180 (index out of range panics) *)
Definition nget (nodes : list (Z * Z)) (i : nat) (b : bool) : res Z :=
  let* p := idx nodes i in Ok (pair_get p b).
(* db/format/ipdb/writer.go:142,175 (index out of range panics) *)
Definition nset (nodes : list (Z * Z)) (i : nat) (b : bool) (v : Z) : res (list (Z * Z)) :=
  let* p := idx nodes i in Ok (upd nodes i (pair_set p b v)).

(** ((0xFF & int(ip[i>>3])) >> uint(7-(i%8))) & 1 *)
(* db/format/ipdb/writer.go:172,182 *)
Definition ip_bit (ip : bytes) (i : nat) : res bool :=
  let* x := idx ip (i / 8) in
  Ok (N.odd (N.shiftr (N.land 255 (b2n x)) (N.of_nat (7 - i mod 8)))).

(** db/format/ipdb/writer.go:171-181: [cnt] rounds from bit [i] on; returns the node table,
    node, bit and whether the end was reached. *)
Fixpoint nodes_loop (cnt i : nat) (ip : bytes) (nodes : list (Z * Z)) (node : nat) (bit : bool)
  : res (list (Z * Z) * nat * bool * bool) :=
  match cnt with
  | O => Ok (nodes, node, bit, true)
  | S k =>
      let* b := ip_bit ip i in
      let* e := nget nodes node b in
      let* nodes :=
        (if e =? 0
         then nset (nodes ++ [(0, 0)]) node b (Z.of_nat (length nodes))
         else Ok nodes) in
      let* e := nget nodes node b in
      if e <? 0 then Ok (nodes, node, b, false)
      else nodes_loop k (S i) ip nodes (Z.to_nat e) b
  end.

(** db/format/ipdb/writer.go:159-183 Nodes; the last index expression panics for maxMask < 0. *)
Definition Nodes (nodes : list (Z * Z)) (ip : bytes) (mask : nat)
  : res (list (Z * Z) * nat * bool * bool) :=
  let maxMask := Z.of_nat mask - 1 in
  let is4 := negb (is_nil (to4 ip)) in
  let maxMask := if is4 && (maxMask <? 32) then maxMask + 96 else maxMask in
  let ip := if is4 && (length ip =? 4)%nat then to16 ip else ip in
  if maxMask <? 0 then Panic
  else
    let* ' (nodes, node, bit, ok) := nodes_loop (Z.to_nat maxMask) 0 ip nodes 0 false in
    if ok then let* b := ip_bit ip (Z.to_nat maxMask) in Ok (nodes, node, b, true)
    else Ok (nodes, node, bit, false).

(** db/format/ipdb/writer.go:188-198 Fields: new hash, new chunk, offset *)
Definition Fields (hash : list (bytes * Z)) (chunk : bytes) (values : list bytes)
  : list (bytes * Z) * bytes * Z :=
  let data := join x09 values in
  match assoc data hash with
  | Some off => (hash, chunk, off)
  | None =>
      let off := Z.of_nat (length chunk) + 8 in
      ((data, off) :: hash,
       chunk ++ IntToBinaryBE (Z.of_nat (length data)) 16 ++ data, off)
  end.

(** db/format/ipdb/writer.go:124-139 continent name -> code *)
Definition cont_code (v : bytes) : bytes :=
  if bytes_eqb v (str "亚洲") then str "AS"
  else if bytes_eqb v (str "欧洲") then str "EU"
  else if bytes_eqb v (str "北美洲") then str "NA"
  else if bytes_eqb v (str "南美洲") then str "SA"
  else if bytes_eqb v (str "大洋洲") then str "OC"
  else if bytes_eqb v (str "非洲") then str "AF"
  else if bytes_eqb v (str "南极洲") then str "AN" else v.

(** db/format/ipdb/writer.go:123-140: the values written (panics when the row is too short). *)
Definition conv_values (cont : option nat) (values : list bytes) : res (list bytes) :=
  match cont with
  | None => Ok values
  | Some i => let* v := idx values i in Ok (upd values i (cont_code v))
  end.

(** db/format/ipdb/writer.go:112-144 insert: new writer and returned error.  The log line of
    the error branch reads a stored record and has no effect. *)
Definition insert (w : Writer) (n : IPNet) (values : list bytes) : res (Writer * option error) :=
  let '(mask, _) := mask_size (nMask n) in
  let* ' (nodes, node, bit, ok) := Nodes (wNode w) (nIP n) mask in
  let w := mkWriter (wMeta w) nodes (wHash w) (wChunk w) (wCont w) in
  if negb ok then Ok (w, Some ErrInvalidCIDR)
  else
    let* e := nget nodes node bit in
    if 0 <? e then Ok (w, Some ErrCIDRConflict)
    else
      let* values := conv_values (wCont w) values in
      let '(hash, chunk, off) := Fields (wHash w) (wChunk w) values in
      let* nodes := nset nodes node bit (- off) in
      Ok (mkWriter (wMeta w) nodes hash chunk (wCont w), None).

(** db/format/ipdb/writer.go:70-85 node chunk *)
Definition node_out (nodeCount v : Z) : bytes :=
  IntToBinaryBE (if v <=? 0 then nodeCount - v else v) 32.
Definition node_chunk (nodes : list (Z * Z)) : bytes :=
  let nc := Z.of_nat (length nodes) in
  flat_map (fun p => node_out nc (fst p) ++ node_out nc (snd p)) nodes
  ++ IntToBinaryBE nc 32 ++ IntToBinaryBE nc 32.

(** db/format/ipdb/writer.go:71,89: the metadata that is written *)
Definition save_meta (w : Writer) : MetaData :=
  let m := wMeta w in
  mkMeta (mBuild m) (mIPVersion m) (mLanguages m) (Z.of_nat (length (wNode w)))
         (Z.of_nat (length (node_chunk (wNode w)) + length (wChunk w)))
         (mFields m) (mVersion m) (mExtra m).

Section Json.
Variable marshal : MetaData -> bytes.
Variable unmarshal : bytes -> option MetaData.

(** db/format/ipdb/writer.go:67-109 Save (json.Marshal of this struct and writing to the
    buffer do not fail) *)
Definition Save (w : Writer) : bytes :=
  let metaData := marshal (save_meta w) in
  IntToBinaryBE (Z.of_nat (length metaData)) 32 ++ metaData
  ++ node_chunk (wNode w) ++ wChunk w.

(** db/format/ipdb/packer.go:12-15: errors of insert are ignored *)
Fixpoint insert_all (w : Writer) (rows : list IpRaw) : res Writer :=
  match rows with
  | [] => Ok w
  | r :: rest => let* ' (w, _) := insert w (cidr r) (fvals r) in insert_all w rest
  end.

(** db/format/ipdb/packer.go:8-17 pack *)
Definition pack_writer (now : Z) (ipd : IpData) : Writer :=
  let meta := buildMeta now (dVersion ipd) in
  NewWriter (mkMeta (mBuild meta) (mIPVersion meta) (mLanguages meta) (mNodeCount meta)
                    (mTotalSize meta) (covertFields (dFields ipd)) (mVersion meta) (mExtra meta)) [].
Definition pack (now : Z) (ipd : IpData) : res bytes :=
  let* w := insert_all (pack_writer now ipd) (dIps ipd) in Ok (Save w).

(* ------------------------------------------------------------------ *)
(** * reader.go *)

(** db/format/ipdb/reader.go:34-43 reader; rCache is nil (None) without IPv4. *)
Record Reader := mkReader {
  rFileSize : Z; rNodeCount : Z; rV4offset : Z; rMeta : MetaData; rData : bytes;
  rCont : option nat; rCache : option (list N) }.

(** data[lo:hi] with int bounds *)
(* db/format/ipdb/reader.go:252,261,265 *)
Definition zslice (l : bytes) (lo hi : Z) : res bytes :=
  if lo <? 0 then Panic else if hi <? 0 then Panic else slice l (Z.to_nat lo) (Z.to_nat hi).

(** db/format/ipdb/reader.go:250-253 readNode *)
Definition readNode (data : bytes) (node : Z) (bit : bool) : res Z :=
  let off := node * 8 + (if bit then 4 else 0) in
  let* b := zslice data off (off + 4) in Ok (Z.of_N (val b)).

(** db/format/ipdb/reader.go:240-248 readDepth: [cnt] = depth - i rounds *)
Fixpoint readDepth_loop (data : bytes) (nc : Z) (cnt i : nat) (node : Z) (ip : bytes) : res (Z * nat) :=
  match cnt with
  | O => Ok (node, i)
  | S k =>
      if nc <=? node then Ok (node, i)
      else
        let* b := ip_bit ip i in
        let* node := readNode data node b in
        readDepth_loop data nc k (S i) node ip
  end.
Definition readDepth (data : bytes) (nc : Z) (node : Z) (depth i : nat) (ip : bytes) : res (Z * nat) :=
  readDepth_loop data nc (depth - i) i node ip.

(** db/format/ipdb/reader.go:79-87: walk to the IPv4 part *)
Fixpoint v4walk (data : bytes) (nc : Z) (cnt i : nat) (node : Z) : res Z :=
  match cnt with
  | O => Ok node
  | S k => if node <? nc
           then let* n := readNode data node (80 <=? i)%nat in v4walk data nc k (S i) n
           else Ok node
  end.

(** db/format/ipdb/reader.go:45 *)
Definition cacheDepth : nat := 14.

(** db/format/ipdb/reader.go:94-96 indexToBytes, 98-100 bytesToIndex (index of two bytes) *)
Definition indexToBytes (i : N) : bytes :=
  [n2b (N.shiftr (N.shiftl i 2) 8); n2b (N.land 255 (N.shiftl i 2))].
Definition bytesToIndex (b : bytes) : res N :=
  let* b0 := idx b 0 in let* b1 := idx b 1 in
  Ok (N.lor (N.shiftr (N.shiftl (N.land 255 (b2n b0)) 8) 2) (N.shiftr (N.land 255 (b2n b1)) 2)).

(** db/format/ipdb/reader.go:102-106 setCache and 115-122 initBitsCache (1<<14 entries) *)
Definition setCache (data : bytes) (nc v4 : Z) (i : N) : res N :=
  let* ' (node, off) := readDepth data nc v4 cacheDepth 0 (indexToBytes i) in
  Ok (N.lor (N.shiftl (Z.to_N node) 5) (N.of_nat off)).
Fixpoint mapM {A B} (f : A -> res B) (l : list A) : res (list B) :=
  match l with
  | [] => Ok []
  | a :: r => let* b := f a in let* bs := mapM f r in Ok (b :: bs)
  end.
Definition cacheIndices : list N := map N.of_nat (seq 0 (Nat.pow 2 14)).
Definition initBitsCache (data : bytes) (nc v4 : Z) : res (list N) :=
  mapM (setCache data nc v4) cacheIndices.

(** db/format/ipdb/reader.go:108-113 getCache *)
Definition getCache (cache : list N) (ip : bytes) : res (Z * nat) :=
  let* i := bytesToIndex ip in
  let* r := idx cache (N.to_nat i) in
  Ok (Z.of_N (N.shiftr r 5), N.to_nat (N.land r 31)).

(** db/format/ipdb/reader.go:281-287 *)
Definition HasIPv4 (m : MetaData) : bool := (N.land (mIPVersion m) 1 =? 1)%N.
Definition HasIPv6 (m : MetaData) : bool := (N.land (mIPVersion m) 2 =? 2)%N.

(** db/format/ipdb/reader.go:48-92 newReaderFromBytes *)
Definition newReaderFromBytes (data : bytes) : res Reader :=
  let* h := slice data 0 4 in
  let metaLength := Z.of_N (val h) in
  if Z.of_nat (length data) <? 4 + metaLength then Err ErrFileSize
  else
    let* mb := zslice data 4 (4 + metaLength) in
    match unmarshal mb with
    | None => Err ErrJson
    | Some meta =>
        if (length (mLanguages meta) =? 0)%nat || (length (mFields meta) =? 0)%nat then Err ErrMetaData
        else if negb (Z.of_nat (length data) =? 4 + metaLength + mTotalSize meta) then Err ErrFileSize
        else
          let* body := zslice data (4 + metaLength) (Z.of_nat (length data)) in
          let nc := mNodeCount meta in
          let cont := offset_of FieldContinentCode (mFields meta) in
          if HasIPv4 meta then
            let* v4 := v4walk body nc 96 0 0 in
            let* cache := initBitsCache body nc v4 in
            Ok (mkReader (Z.of_nat (length data)) nc v4 meta body cont (Some cache))
          else Ok (mkReader (Z.of_nat (length data)) nc 0 meta body cont None)
    end.

(** db/format/ipdb/reader.go:216-238 search *)
Definition search (r : Reader) (ip : bytes) (bitCount : nat) : res (Z * nat) :=
  let node := if (bitCount =? 32)%nat then rV4offset r else 0 in
  let nc := rNodeCount r in
  let slow node i :=
    let* ' (node, i) := readDepth (rData r) nc node bitCount i ip in
    if nc <? node then Ok (node, i) else Err ErrDataNotExists in
  match rCache r with
  | Some cache =>
      if (bitCount =? 32)%nat then
        let* ' (node, i) := getCache cache ip in
        if nc <? node then Ok (node, i) else slow node i
      else slow node 0%nat
  | None => slow node 0%nat
  end.

(** db/format/ipdb/reader.go:255-268 resolve *)
Definition resolve (r : Reader) (node : Z) : res bytes :=
  let resolved := node - rNodeCount r + rNodeCount r * 8 in
  if rFileSize r <=? resolved then Err ErrDatabaseError
  else
    let* sz := zslice (rData r) resolved (resolved + 2) in
    let size := Z.of_N (val sz) in
    if Z.of_nat (length (rData r)) <? resolved + 2 + size then Err ErrDatabaseError
    else zslice (rData r) (resolved + 2) (resolved + 2 + size).

(** db/format/ipdb/reader.go:186-214 find0: node, body, mask *)
Definition find0 (r : Reader) (ipv : bytes) : res (Z * bytes * nat) :=
  let go ip bitCount :=
    let* ' (node, mask) := search r ip bitCount in
    let* body := resolve r node in Ok (node, body, mask) in
  if negb (is_nil (to4 ipv)) then
    if HasIPv4 (rMeta r) then go (to4 ipv) 32%nat else Err ErrNoSupportIPv4
  else if negb (is_nil (to16 ipv)) then
    if HasIPv6 (rMeta r) then go (to16 ipv) 128%nat else Err ErrNoSupportIPv6
  else Err ErrIPFormat.

(** db/format/ipdb/reader.go:153-168 continent code -> name *)
Definition cont_name (v : bytes) : bytes :=
  if bytes_eqb v (str "AS") then str "亚洲"
  else if bytes_eqb v (str "EU") then str "欧洲"
  else if bytes_eqb v (str "NA") then str "北美洲"
  else if bytes_eqb v (str "SA") then str "南美洲"
  else if bytes_eqb v (str "AF") then str "非洲"
  else if bytes_eqb v (str "OC") then str "大洋洲"
  else if bytes_eqb v (str "AN") then str "南极洲" else v.

(** db/format/ipdb/reader.go:144-171 decodeInfo *)
Definition decodeInfo (r : Reader) (body : bytes) (off : Z) : res (list bytes) :=
  let tmp := split x09 body in
  let n := Z.of_nat (length (mFields (rMeta r))) in
  if Z.of_nat (length tmp) <? off + n then Err ErrDatabaseError
  else if off <? 0 then Panic
  else
    let* ret := slice tmp (Z.to_nat off) (Z.to_nat (off + n)) in
    match rCont r with
    | None => Ok ret
    | Some i => let* v := idx ret i in Ok (upd ret i (cont_name v))
    end.

(** db/format/ipdb/reader.go:173-184 find1 *)
Definition find1 (r : Reader) (addr language : bytes) : res (list bytes * nat) :=
  match assoc language (mLanguages (rMeta r)) with
  | None => Err ErrNoSupportLanguage
  | Some off =>
      let* ' (_, body, mask) := find0 r addr in
      let* ret := decodeInfo r body off in Ok (ret, mask)
  end.

(** db/format/ipdb/reader.go:130-133: m[v] = ret[i] in order, so later fields win: the map is
    the association list with the last assignment first. *)
Definition field_map (fields : list bytes) (ret : list bytes) : list (bytes * bytes) :=
  rev (combine fields ret).

(** db/format/ipdb/reader.go:124-142 findMap *)
Definition findMap (r : Reader) (addr language : bytes) : res (IPNet * list (bytes * bytes)) :=
  let* ' (ret, mask) := find1 r addr language in
  let ip := if is_nil (to4 addr) then to16 addr else to4 addr in
  let cidrMask := CIDRMask (Z.of_nat mask) (Z.of_nat (length ip) * 8) in
  Ok (mkNet (ip_mask addr cidrMask) cidrMask, field_map (mFields (rMeta r)) ret).

(** db/format/ipdb/reader.go:268-277,289-305 version; Languages() has no fixed order in Go, here the order of the map *)
Definition version (r : Reader) : VersionInfo :=
  mkVersion (IpType (rMeta r)) (Z.to_N (mNodeCount (rMeta r) mod 2 ^ 32)) (mBuild (rMeta r))
            (match mVersion (rMeta r) with [] => str "ipip.net-" ++ dateText (mBuild (rMeta r)) | v => v end)
            (map fst (mLanguages (rMeta r))) (mExtra (rMeta r)).

(* ------------------------------------------------------------------ *)
(** * querier.go *)

(** db/format/ipdb/querier.go:10-13: the query cache is a Go map from node to info. *)
Definition QCache := list (Z * IpInfo).
Fixpoint qget (k : Z) (c : QCache) : option IpInfo :=
  match c with
  | [] => None
  | (k', v) :: r => if k' =? k then Some v else qget k r
  end.

(** db/format/ipdb/querier.go:58-78: copy the known columns *)
Definition set_field (info : IpInfo) (f v : bytes) : IpInfo :=
  let '(mkInfo co di pr ci asn isp ct ln) := info in
  if bytes_eqb f FieldCountryName then mkInfo v di pr ci asn isp ct ln
  else if bytes_eqb f FieldRegionName then mkInfo co di v ci asn isp ct ln
  else if bytes_eqb f FieldCityName then mkInfo co di pr v asn isp ct ln
  else if bytes_eqb f FieldISPDomain then mkInfo co di pr ci asn v ct ln
  else if bytes_eqb f fAsn then mkInfo co di pr ci v isp ct ln
  else if bytes_eqb f FieldContinentCode then mkInfo co di pr ci asn isp v ln
  else if bytes_eqb f fLine then mkInfo co di pr ci asn isp ct v
  else if bytes_eqb f fDistrict then mkInfo co v pr ci asn isp ct ln
  else info.
Definition make_info (fields values : list bytes) : IpInfo :=
  fold_left (fun info fv => set_field info (fst fv) (snd fv)) (combine fields values) emptyInfo.

(** db/format/ipdb/querier.go:41-80 QueryInternal.  The error of find0 is dropped: on error its
    other results are node 0, a nil body and mask 0. *)
Definition QueryInternal (r : Reader) (c : QCache) (ip : bytes) (cache : bool)
  : res (Z * IpInfo * nat) :=
  let* ' (node, body, mask) :=
    (match find0 r ip with Err _ => Ok (0, [], 0%nat) | x => x end) in
  let slow :=
    match assoc (str "CN") (mLanguages (rMeta r)) with
    | None => Err ErrNoSupportLanguage
    | Some off =>
        let* values := decodeInfo r body off in
        Ok (node, make_info (mFields (rMeta r)) values, mask)
    end in
  if cache then match qget node c with Some v => Ok (node, v, mask) | None => slow end
  else slow.

(** db/format/ipdb/querier.go:36-39 Query *)
Definition Query (r : Reader) (c : QCache) (ip : bytes) : res (IpInfo * nat) :=
  let* ' (_, info, mask) := QueryInternal r c ip true in Ok (info, mask).

(** db/format/ipdb/querier.go:23-34 BuildCache; the addresses are given parsed (net.ParseIP;
    an unparsable text is the nil address []; the empty text is skipped, which
    is None here). *)
Fixpoint BuildCache (r : Reader) (c : QCache) (ips : list (option bytes)) : res QCache :=
  match ips with
  | [] => Ok c
  | None :: rest => BuildCache r c rest
  | Some ip :: rest =>
      match QueryInternal r c ip false with
      | Ok (node, info, _) => BuildCache r ((node, info) :: c) rest
      | Err _ => BuildCache r c rest
      | Panic => Panic
      | OutOfFuel => OutOfFuel
      end
  end.

(** db/format/ipdb/querier.go:15-21 newQuerier *)
Definition newQuerier (data : bytes) : res (Reader * QCache) :=
  let* r := newReaderFromBytes data in Ok (r, []).

End Json.
