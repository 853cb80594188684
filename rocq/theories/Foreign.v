(** Models of the two other readers of the ipdb format:
    /repo/rust/src/formats/ipdb/reader.rs, rust/src/formats/ipdb.rs, rust/src/query.rs and
    /repo/java/src/main/java/qiniu/uip/db/format/ipdb/Reader.java, Ipdb.java, db/Query.java.
    Parameters: [unmarshal] the JSON library of the language (serde_json, Gson)
    and [lossy] its UTF-8 decoder (String::from_utf8_lossy, new String(.., UTF_8));
    a string of the language is represented by its UTF-8 bytes.
    Ok = a result, Err = a returned io::Error / a declared exception (only the
    kind is kept), Panic = a Rust panic / an unchecked Java exception. *)
From Verif Require Export Base NetIP Inf Ipdb.
Open Scope Z_scope.

(** 32-bit signed numbers: the value of an unsigned one read as i32/int
    (BigEndian::read_i32; Reader.java:82-92 followed by intValue), Java's
    wrap-around, and Rust's checked arithmetic (a release build wraps instead). *)
Definition i32 (n : N) : Z := let z := Z.of_N n in if z <? 2 ^ 31 then z else z - 2 ^ 32.
Definition wrap32 (z : Z) : Z := (z + 2 ^ 31) mod 2 ^ 32 - 2 ^ 31.
Definition chk32 (z : Z) : res Z := if (- 2 ^ 31 <=? z) && (z <? 2 ^ 31) then Ok z else Panic.

(** l[i] with an int index *)
(* Java array access and Rust Vec index, rust/src/formats/ipdb/reader.rs and java/src/main/java/qiniu/uip/db/format/ipdb/Reader.java:249 *)
Definition zidx {A} (l : list A) (i : Z) : res A := if i <? 0 then Panic else idx l (Z.to_nat i).

(** The tree walk of both readers, over their own way [rd] to read a node:
    reader.rs:246-256 read_depth, Reader.java:252-260 readDepth; [cnt] = depth - i. *)
Section Walk.
Variable rd : Z -> bool -> res Z.
Fixpoint depth_loop (nc : Z) (cnt i : nat) (node : Z) (ip : bytes) : res Z :=
  match cnt with
  | O => Ok node
  | S k => if nc <=? node then Ok node
           else let* b := ip_bit ip i in let* n := rd node b in depth_loop nc k (S i) n ip
  end.

(** reader.rs:79-90: at least one node is read *)
Fixpoint rs_v4walk (nc : Z) (cnt i : nat) (node : Z) : res Z :=
  match cnt with
  | O => Ok node
  | S k => let* n := rd node (80 <=? i)%nat in
           if nc <=? n then Ok n else rs_v4walk nc k (S i) n
  end.

(** Reader.java:60-68 *)
Fixpoint j_v4walk (nc : Z) (cnt i : nat) (node : Z) : res Z :=
  match cnt with
  | O => Ok node
  | S k => if node <? nc then let* n := rd node (80 <=? i)%nat in j_v4walk nc k (S i) n else Ok node
  end.

(** reader.rs:49, Reader.java:16 *)
Definition cacheDepth12 : nat := 12.
(** reader.rs:108-109, Reader.java:76-80 indexToBytes *)
Definition indexToBytes12 (i : N) : bytes :=
  [n2b (N.shiftr (N.shiftl i 4) 8); n2b (N.land 255 (N.shiftl i 4))].
(** reader.rs:240-244 bytes_to_index, Reader.java:176-180 bytesToIndex *)
Definition bytesToIndex12 (b : bytes) : res N :=
  let* b0 := idx b 0 in let* b1 := idx b 1 in
  Ok (N.lor (N.shiftr (N.shiftl (N.land 255 (b2n b0)) 8) 4) (N.shiftr (N.land 255 (b2n b1)) 4)).
Definition cacheIndices12 : list N := map N.of_nat (seq 0 (Nat.pow 2 12)).
(** reader.rs:103-114 init_cache, Reader.java:183-191 initCache *)
Definition initCache12 (nc v4 : Z) : res (list Z) :=
  mapM (fun i => depth_loop nc cacheDepth12 0 v4 (indexToBytes12 i)) cacheIndices12.

(** reader.rs:217-238 find_node, Reader.java:262-286 findNode *)
Definition find_node12 (nc v4 : Z) (cache : option (list Z)) (b : bytes) : res Z :=
  let bit := (length b * 8)%nat in
  let slow node i :=
    let* n := depth_loop nc (bit - i) i node b in
    if nc <=? n then Ok n else Err ErrDataNotExists in
  match cache with
  | Some c =>
      if (bit =? 32)%nat then
        let* index := bytesToIndex12 b in
        let* node := idx c (N.to_nat index) in
        if nc <=? node then Ok node else slow node cacheDepth12
      else slow 0 0%nat
  | None => slow (if (bit =? 32)%nat then v4 else 0) 0%nat
  end.
End Walk.

(* ------------------------------------------------------------------ *)
(** * Rust *)
Section Rust.
Variable unmarshal : bytes -> option MetaData.
Variable lossy : bytes -> bytes.

(** reader.rs:51-59 Reader (the result cache is never used) *)
Record RReader := mkRReader {
  rsMeta : MetaData; rsFileSize : Z; rsNodeCount : Z; rsData : bytes; rsV4 : Z; rsCache : option (list Z) }.

(** reader.rs:98-101 read_node *)
Definition rs_read_node (data : bytes) (node : Z) (bit : bool) : res Z :=
  let* a := chk32 (node * 8) in
  let* off := chk32 (a + (if bit then 4 else 0)) in
  let* b := zslice data off (off + 4) in Ok (i32 (val b)).

(** reader.rs:26-46 MetaData::new (usize has 64 bits; an i32 is sign-extended) *)
Definition rs_meta (buf : bytes) : res (MetaData * Z) :=
  if (length buf <? 4)%nat then Err ErrMetaData
  else
    let* h := slice buf 0 4 in
    let meta_size := i32 (val h) mod 2 ^ 64 in
    let end_ := meta_size + 4 in
    if 2 ^ 64 <=? end_ then Panic
    else if Z.of_nat (length buf) <? end_ then Err ErrMetaData
    else
      let* mb := zslice buf 4 end_ in
      match unmarshal mb with Some m => Ok (m, meta_size) | None => Err ErrJson end.

(** reader.rs:62-96 Reader::new *)
Definition rs_new (data : bytes) : res RReader :=
  let* ' (m, meta_size) := rs_meta data in
  let* t := chk32 (mTotalSize m + wrap32 meta_size) in
  let* t := chk32 (t + 4) in
  if negb (t =? wrap32 (Z.of_nat (length data))) then Err ErrFileSize
  else
    let* body := zslice data (meta_size + 4) (Z.of_nat (length data)) in
    let nc := mNodeCount m in
    let fs := wrap32 (Z.of_nat (length data)) in
    if HasIPv4 m then
      let* v4 := rs_v4walk (rs_read_node body) nc 96 0 0 in
      let* c := initCache12 (rs_read_node body) nc v4 in
      Ok (mkRReader m fs nc body v4 (Some c))
    else Ok (mkRReader m fs nc body 0 None).

(** reader.rs:177-190 find0 *)
Definition rs_find0 (r : RReader) (ip : bytes) : res Z :=
  let go := find_node12 (rs_read_node (rsData r)) (rsNodeCount r) (rsV4 r) (rsCache r) ip in
  if (length ip =? 16)%nat then (if HasIPv6 (rsMeta r) then go else Err ErrNoSupportIPv6)
  else if (length ip =? 4)%nat then (if HasIPv4 (rsMeta r) then go else Err ErrNoSupportIPv4)
  else Err ErrIPFormat.

(** reader.rs:192-215 resolve_node: the language only has to exist *)
Definition rs_resolve (r : RReader) (node : Z) (lang : bytes) : res (list bytes) :=
  match assoc lang (mLanguages (rsMeta r)) with
  | None => Err ErrNoSupportLanguage
  | Some _ =>
      let* a := chk32 (node - rsNodeCount r) in
      let* b := chk32 (rsNodeCount r * 8) in
      let* resolved := chk32 (a + b) in
      if rsFileSize r <=? resolved then Err ErrDatabaseError
      else
        let* sz := zslice (rsData r) resolved (resolved + 2) in
        let size := Z.of_N (val sz) in
        if Z.of_nat (length (rsData r)) <? resolved + 2 + size then Err ErrDatabaseError
        else
          let* s := zslice (rsData r) (resolved + 2) (resolved + 2 + size) in
          Ok (split x09 (lossy s))
  end.

(** reader.rs:159-170: the seven codes; anything else leaves the continent alone *)
Definition rs_continent (old v : bytes) : bytes :=
  if bytes_eqb v (str "AS") then str "亚洲"
  else if bytes_eqb v (str "EU") then str "欧洲"
  else if bytes_eqb v (str "NA") then str "北美洲"
  else if bytes_eqb v (str "SA") then str "南美洲"
  else if bytes_eqb v (str "AF") then str "非洲"
  else if bytes_eqb v (str "OC") then str "大洋洲"
  else if bytes_eqb v (str "AN") then str "南极洲" else old.

(** reader.rs:151-172: one column; [v] is val[i], evaluated in the arms only *)
Definition rs_set (info : IpInfo) (f : bytes) (v : res bytes) : res IpInfo :=
  let '(mkInfo co di pr ci asn isp ct ln) := info in
  if bytes_eqb f (str "country_name") then let* v := v in Ok (mkInfo v di pr ci asn isp ct ln)
  else if bytes_eqb f (str "region_name") then let* v := v in Ok (mkInfo co di v ci asn isp ct ln)
  else if bytes_eqb f (str "city_name") then let* v := v in Ok (mkInfo co di pr v asn isp ct ln)
  else if bytes_eqb f (str "isp_domain") then let* v := v in Ok (mkInfo co di pr ci asn v ct ln)
  else if bytes_eqb f (str "asn") then let* v := v in Ok (mkInfo co di pr ci v isp ct ln)
  else if bytes_eqb f (str "line") then let* v := v in Ok (mkInfo co di pr ci asn isp ct v)
  else if bytes_eqb f (str "district") then let* v := v in Ok (mkInfo co v pr ci asn isp ct ln)
  else if bytes_eqb f (str "continent_code") then let* v := v in Ok (mkInfo co di pr ci asn isp (rs_continent ct v) ln)
  else Ok info.

(** reader.rs:139-175 build_info *)
Fixpoint rs_build (vals : list bytes) (i : nat) (fields : list bytes) (info : IpInfo) : res IpInfo :=
  match fields with
  | [] => Ok info
  | f :: fs => let* info := rs_set info f (idx vals i) in rs_build vals (S i) fs info
  end.
Definition rs_build_info (vals fields : list bytes) : res IpInfo := rs_build vals 0 fields emptyInfo.

(** reader.rs:124-137 find, ipdb.rs:28-30 and query.rs:24-26 query *)
Definition rs_find (r : RReader) (addr lang : bytes) : res IpInfo :=
  let* node := rs_find0 r addr in
  let* v := rs_resolve r node lang in
  rs_build_info v (mFields (rsMeta r)).
Definition rs_query (r : RReader) (ip : bytes) : res IpInfo := rs_find r ip (str "CN").

(** query.rs:46-49 query_u32 *)
Definition rs_query_u32 (r : RReader) (ip : N) : res IpInfo := rs_query r (be_enc 4 ip).
End Rust.

(* ------------------------------------------------------------------ *)
(** * Java *)
Section Java.
Variable unmarshal : bytes -> option MetaData.
Variable lossy : bytes -> bytes.

(** java.util.Arrays.copyOfRange: padded with [pad] beyond the end *)
(* called from java/src/main/java/qiniu/uip/db/format/ipdb/Reader.java:42,56,249 *)
Definition copyOfRange {A} (pad : A) (l : list A) (from to : Z) : res (list A) :=
  if to <? from then Panic
  else if (from <? 0) || (Z.of_nat (length l) <? from) then Panic
  else
    let n := Z.to_nat (to - from) in
    let part := firstn n (skipn (Z.to_nat from) l) in
    Ok (part ++ repeat pad (n - length part)).

(** String.split("\t", limit): at most [limit] pieces if limit > 0; for limit = 0
    trailing empty pieces are dropped unless there was no separator.
    [split_max sep k]: at most k cuts. *)
(* String.split, called from java/src/main/java/qiniu/uip/db/format/ipdb/Reader.java:249 *)
Fixpoint split_max (sep : byte) (k : nat) (s : bytes) : list bytes :=
  match s with
  | [] => [[]]
  | c :: r =>
      if byte_eqb c sep then
        match k with O => [s] | S k' => [] :: split_max sep k' r end
      else match split_max sep k r with h :: t => (c :: h) :: t | [] => [[c]] end
  end.
(* String.split, called from java/src/main/java/qiniu/uip/db/format/ipdb/Reader.java:249 *)
Fixpoint drop_empty (l : list bytes) : list bytes :=
  match l with [] => [] | x :: r => match x with [] => drop_empty r | _ => l end end.
(* String.split, called from java/src/main/java/qiniu/uip/db/format/ipdb/Reader.java:249 *)
Definition java_split (s : bytes) (limit : nat) : list bytes :=
  match limit with
  | O => let p := split x09 s in if (length p =? 1)%nat then p else rev (drop_empty (rev p))
  | S k => split_max x09 k s
  end.

(** IpInfo.java:3-11: fields are null (None) until set *)
Record JInfo := mkJInfo {
  jCountry : option bytes; jDistrict : option bytes; jProvince : option bytes; jCity : option bytes;
  jAsn : option bytes; jIsp : option bytes; jContinent : option bytes; jLine : option bytes }.
Definition emptyJInfo : JInfo := mkJInfo None None None None None None None None.

(** Reader.java:16-24 *)
Record JReader := mkJReader {
  jrMeta : MetaData; jrFileSize : Z; jrNodeCount : Z; jrData : bytes; jrV4 : Z; jrCache : option (list Z) }.

(** Reader.java:288-297 readNode, 82-92 bytesToLong *)
Definition j_read_node (data : bytes) (node : Z) (bit : bool) : res Z :=
  let off := wrap32 (wrap32 (node * 8) + (if bit then 4 else 0)) in
  let* a := zidx data off in
  let* b := zidx data (wrap32 (off + 1)) in
  let* c := zidx data (wrap32 (off + 2)) in
  let* d := zidx data (wrap32 (off + 3)) in
  Ok (i32 (val [a; b; c; d])).

(** Reader.java:26-74 constructor.  Every exception of lines 40-50 becomes
    InvalidDatabaseException (running out of memory is not modelled). *)
Definition j_new (data : bytes) : res JReader :=
  let fs := Z.of_nat (length data) in
  if fs <? 5 then Err ErrFileSize
  else
    let* h := slice data 0 4 in
    let metaLength := i32 (val h) in
    let* m :=
      (match copyOfRange x00 data 4 (wrap32 (metaLength + 4)) with
       | Ok mb => match unmarshal mb with Some m => Ok m | None => Err ErrJson end
       | _ => Err ErrMetaData
       end) in
    if negb (wrap32 (mTotalSize m + metaLength + 4) =? fs) then Err ErrFileSize
    else
      let* body := copyOfRange x00 data (wrap32 (metaLength + 4)) fs in
      let nc := mNodeCount m in
      if HasIPv4 m then
        let* v4 := j_v4walk (j_read_node body) nc 96 0 0 in
        let* c := initCache12 (j_read_node body) nc v4 in
        Ok (mkJReader m fs nc body v4 (Some c))
      else Ok (mkJReader m fs nc body 0 None).

(** Reader.java:193-215 find0: an address that is not found is node 0 *)
Definition j_find0 (r : JReader) (ip : bytes) : res Z :=
  let go := match find_node12 (j_read_node (jrData r)) (jrNodeCount r) (jrV4 r) (jrCache r) ip with
            | Err _ => Ok 0 | x => x end in
  if (length ip =? 16)%nat then (if HasIPv6 (jrMeta r) then go else Err ErrNoSupportIPv6)
  else if (length ip =? 4)%nat then (if HasIPv4 (jrMeta r) then go else Err ErrNoSupportIPv4)
  else Err ErrIPFormat.

(** Reader.java:223-250 resolveNode; null (None) for an unknown language *)
Definition j_resolve (r : JReader) (node : Z) (lang : bytes) : res (option (list (option bytes))) :=
  match assoc lang (mLanguages (jrMeta r)) with
  | None => Ok None
  | Some off =>
      let resolved := wrap32 (wrap32 (node - jrNodeCount r) + wrap32 (jrNodeCount r * 8)) in
      if jrFileSize r <=? resolved then Err ErrDatabaseError
      else
        let* a := zidx (jrData r) resolved in
        let* b := zidx (jrData r) (wrap32 (resolved + 1)) in
        let size := Z.of_N (val [a; b]) in
        if Z.of_nat (length (jrData r)) <? wrap32 (resolved + 2 + size) then Err ErrDatabaseError
        else
          let* s := zslice (jrData r) (wrap32 (resolved + 2)) (wrap32 (resolved + 2) + size) in
          let n := length (mFields (jrMeta r)) in
          let* parts := copyOfRange None (map Some (java_split (lossy s) (n * length (mLanguages (jrMeta r)))))
                                    off (off + Z.of_nat n) in
          Ok (Some parts)
  end.

(** Reader.java:141-167: switch on the continent; null throws *)
Definition j_continent (v : option bytes) : res bytes :=
  match v with
  | None => Panic
  | Some v =>
      Ok (if bytes_eqb v (str "AS") then str "亚洲"
          else if bytes_eqb v (str "EU") then str "欧洲"
          else if bytes_eqb v (str "NA") then str "北美洲"
          else if bytes_eqb v (str "SA") then str "南美洲"
          else if bytes_eqb v (str "AF") then str "非洲"
          else if bytes_eqb v (str "OC") then str "大洋洲"
          else if bytes_eqb v (str "AN") then str "南极洲" else v)
  end.

(** Reader.java:120-168: one column; case "asn" falls through to "line" *)
Definition j_set (info : JInfo) (f : bytes) (v : option bytes) : res JInfo :=
  let '(mkJInfo co di pr ci asn isp ct ln) := info in
  if bytes_eqb f (str "country_name") then Ok (mkJInfo v di pr ci asn isp ct ln)
  else if bytes_eqb f (str "region_name") then Ok (mkJInfo co di v ci asn isp ct ln)
  else if bytes_eqb f (str "city_name") then Ok (mkJInfo co di pr v asn isp ct ln)
  else if bytes_eqb f (str "isp_domain") then Ok (mkJInfo co di pr ci asn v ct ln)
  else if bytes_eqb f (str "asn") then Ok (mkJInfo co di pr ci v isp ct v)
  else if bytes_eqb f (str "line") then Ok (mkJInfo co di pr ci asn isp ct v)
  else if bytes_eqb f (str "district") then Ok (mkJInfo co v pr ci asn isp ct ln)
  else if bytes_eqb f (str "continent_code") then let* c := j_continent v in Ok (mkJInfo co di pr ci asn isp (Some c) ln)
  else Ok info.

(** Reader.java:117-169: for i < parts.length, fields[i] *)
Fixpoint j_build (parts : list (option bytes)) (i : nat) (fields : list bytes) (info : JInfo) : res JInfo :=
  match parts with
  | [] => Ok info
  | v :: vs => let* f := idx fields i in let* info := j_set info f v in j_build vs (S i) fields info
  end.

(** The map node -> IpInfo of Reader.java:24; null (None) before buildCache *)
Definition JCache := option (list (Z * JInfo)).
Fixpoint jget (k : Z) (c : list (Z * JInfo)) : option JInfo :=
  match c with [] => None | (k', v) :: r => if k' =? k then Some v else jget k r end.

(** Reader.java:105-174 query: the node, the answer (the caller adds it to the
    cache when [build] is set) *)
Definition j_query0 (r : JReader) (c : JCache) (ip : bytes) (cache : bool) : res (Z * JInfo) :=
  let* node := j_find0 r ip in
  match (if cache then match c with Some l => jget node l | None => None end else None) with
  | Some info => Ok (node, info)
  | None =>
      let* parts := j_resolve r node (str "CN") in
      match parts with
      | None => Err ErrIPFormat
      | Some parts => let* info := j_build parts 0 (mFields (jrMeta r)) emptyJInfo in Ok (node, info)
      end
  end.

(** Reader.java:94-103 buildCache: starts a new map, every exception is printed
    and skipped *)
Fixpoint j_build_cache (r : JReader) (l : list (Z * JInfo)) (ips : list bytes) : list (Z * JInfo) :=
  match ips with
  | [] => l
  | ip :: rest =>
      match j_query0 r (Some l) ip false with
      | Ok (node, info) => j_build_cache r ((node, info) :: l) rest
      | _ => j_build_cache r l rest
      end
  end.
Definition j_buildCache (r : JReader) (ips : list bytes) : JCache := Some (j_build_cache r [] ips).

(** db/Query.java:31-46 create for ".ipdb" ([ips]: the parsed addresses of the
    constant list), 73-75 query and Ipdb.java:21-23 *)
Definition j_create (ips : list bytes) (data : bytes) : res (JReader * JCache) :=
  let* r := j_new data in
  Ok (r, if HasIPv4 (jrMeta r) then j_buildCache r ips else None).
Definition j_query (q : JReader * JCache) (ip : bytes) : res JInfo :=
  let* ' (_, info) := j_query0 (fst q) (snd q) ip true in Ok info.
End Java.
