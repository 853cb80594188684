(** Model of what callers of an open ipdb database can reach: the results are pointers (those
    of the query cache are handed out again), and their texts are windows on the bytes the
    database was opened from (db/format/ipdb/reader.go:145 unsafe.Pointer).  The value-level
    model of the same functions is in Ipdb.v; PropsAlias.v relates the two. *)
From Verif Require Import Base NetIP Inf Ipdb.
Open Scope Z_scope.

(** A Go string: bytes of its own, or [len] bytes from [off] of the caller's slice.
    db/format/ipdb/reader.go:144-146,152-169 *)
Inductive gostr := Own (s : bytes) | Win (off len : nat).
Definition gs_read (mem : bytes) (g : gostr) : bytes :=
  match g with Own s => s | Win off len => firstn len (skipn off mem) end.

(** db/inf/db_inf.go:8-20 IpInfo, with Go strings *)
Record WInfo := mkW { wCountry : gostr; wDistrict : gostr; wProvince : gostr; wCity : gostr;
  wAsn : gostr; wIsp : gostr; wContinent : gostr; wLine : gostr }.
(* db/format/ipdb/querier.go:57 &inf.IpInfo{} *)
Definition emptyW : WInfo := mkW (Own []) (Own []) (Own []) (Own []) (Own []) (Own []) (Own []) (Own []).
(** What a caller reads through a result. *)
(* db/inf/db_inf.go:8-20 *)
Definition w_read (mem : bytes) (w : WInfo) : IpInfo :=
  mkInfo (gs_read mem (wCountry w)) (gs_read mem (wDistrict w)) (gs_read mem (wProvince w)) (gs_read mem (wCity w))
         (gs_read mem (wAsn w)) (gs_read mem (wIsp w)) (gs_read mem (wContinent w)) (gs_read mem (wLine w)).
(** What a caller stores into a result: texts of its own. *)
(* db/inf/db_inf.go:8-20 *)
Definition own_info (i : IpInfo) : WInfo :=
  mkW (Own (iCountry i)) (Own (iDistrict i)) (Own (iProvince i)) (Own (iCity i)) (Own (iAsn i)) (Own (iIsp i)) (Own (iContinent i)) (Own (iLine i)).

(** The open database: the caller's slice, where its body starts, the reader without its
    bytes (they are those of the slice), the cache from nodes to pointers, all results made.
    db/format/ipdb/reader.go:33-43 reader, db/format/ipdb/querier.go:10-13 querier *)
Record Live := mkLive { lMem : bytes; lHead : nat; lR : Reader; lCache : list (Z * nat); lHeap : list WInfo }.
(** The reader as it is now: data: data[4+metaLength:] shares the caller's memory.
    db/format/ipdb/reader.go:65-71 *)
Definition now (s : Live) : Reader :=
  let r := lR s in mkReader (rFileSize r) (rNodeCount r) (rV4offset r) (rMeta r) (skipn (lHead s) (lMem s)) (rCont r) (rCache r).
(** What stands at a pointer. *)
(* Go pointer dereference of a result of db/format/ipdb/querier.go:36-39 *)
Definition lread (s : Live) (p : nat) : IpInfo := w_read (lMem s) (nth p (lHeap s) emptyW).

(** db/format/ipdb/reader.go:255-268 resolve: the window of the record in the body *)
Definition resolveW (r : Reader) (node : Z) : res (nat * nat) :=
  let resolved := node - rNodeCount r + rNodeCount r * 8 in
  if rFileSize r <=? resolved then Err ErrDatabaseError
  else
    let* sz := zslice (rData r) resolved (resolved + 2) in
    let size := Z.of_N (val sz) in
    if Z.of_nat (length (rData r)) <? resolved + 2 + size then Err ErrDatabaseError
    else Ok (Z.to_nat (resolved + 2), Z.to_nat size).
(** db/format/ipdb/reader.go:186-214 find0 *)
Definition find0W (r : Reader) (ipv : bytes) : res (Z * (nat * nat) * nat) :=
  let go ip bitCount :=
    let* ' (node, mask) := search r ip bitCount in
    let* w := resolveW r node in Ok (node, w, mask) in
  if negb (is_nil (to4 ipv)) then
    if HasIPv4 (rMeta r) then go (to4 ipv) 32%nat else Err ErrNoSupportIPv4
  else if negb (is_nil (to16 ipv)) then
    if HasIPv6 (rMeta r) then go (to16 ipv) 128%nat else Err ErrNoSupportIPv6
  else Err ErrIPFormat.
(** The text is cut at tabs: windows on the text that starts at [off]; [n] bytes of the
    current piece are behind. *)
(* strings.Split, called from db/format/ipdb/reader.go:146 *)
Fixpoint cuts (off n : nat) (s : bytes) : list gostr :=
  match s with
  | [] => [Win off n]
  | c :: r => if byte_eqb c x09 then Win off n :: cuts (S (off + n)) 0 r else cuts off (S n) r
  end.
(** db/format/ipdb/reader.go:151-169: a known code becomes a constant, anything else stays *)
Definition cont_nameW (mem : bytes) (g : gostr) : gostr :=
  let v := gs_read mem g in if bytes_eqb (cont_name v) v then g else Own (cont_name v).
(** db/format/ipdb/reader.go:144-171 decodeInfo of the window [w] of the body *)
Definition decodeInfoW (s : Live) (w : nat * nat) (off : Z) : res (list gostr) :=
  let start := (lHead s + fst w)%nat in
  let tmp := cuts start 0 (firstn (snd w) (skipn start (lMem s))) in
  let n := Z.of_nat (length (mFields (rMeta (lR s)))) in
  if Z.of_nat (length tmp) <? off + n then Err ErrDatabaseError
  else if off <? 0 then Panic
  else
    let* ret := slice tmp (Z.to_nat off) (Z.to_nat (off + n)) in
    match rCont (lR s) with
    | None => Ok ret
    | Some i => let* v := idx ret i in Ok (upd ret i (cont_nameW (lMem s) v))
    end.
(** db/format/ipdb/querier.go:58-78 *)
Definition set_fieldW (info : WInfo) (f : bytes) (v : gostr) : WInfo :=
  let '(mkW co di pr ci asn isp ct ln) := info in
  if bytes_eqb f FieldCountryName then mkW v di pr ci asn isp ct ln
  else if bytes_eqb f FieldRegionName then mkW co di v ci asn isp ct ln
  else if bytes_eqb f FieldCityName then mkW co di pr v asn isp ct ln
  else if bytes_eqb f FieldISPDomain then mkW co di pr ci asn v ct ln
  else if bytes_eqb f fAsn then mkW co di pr ci v isp ct ln
  else if bytes_eqb f FieldContinentCode then mkW co di pr ci asn isp v ln
  else if bytes_eqb f fLine then mkW co di pr ci asn isp ct v
  else if bytes_eqb f fDistrict then mkW co v pr ci asn isp ct ln
  else info.
Definition make_infoW (fields : list bytes) (values : list gostr) : WInfo :=
  fold_left (fun info fv => set_fieldW info (fst fv) (snd fv)) (combine fields values) emptyW.

(** The map from nodes to pointers. *)
(* db/format/ipdb/querier.go:12,44 queryCache *)
Fixpoint pget (k : Z) (c : list (Z * nat)) : option nat :=
  match c with [] => None | (k', p) :: r => if k' =? k then Some p else pget k r end.
(** A new result. *)
(* db/format/ipdb/querier.go:57 *)
Definition alloc (s : Live) (w : WInfo) : Live * nat :=
  (mkLive (lMem s) (lHead s) (lR s) (lCache s) (lHeap s ++ [w]), length (lHeap s)).
(** db/format/ipdb/querier.go:41-80 QueryInternal: node, pointer, mask *)
Definition QueryInternalW (s : Live) (ip : bytes) (cache : bool) : res (Live * (Z * nat * nat)) :=
  let* ' (node, w, mask) := (match find0W (now s) ip with Err _ => Ok (0, (0%nat, 0%nat), 0%nat) | x => x end) in
  let slow :=
    match assoc (str "CN") (mLanguages (rMeta (lR s))) with
    | None => Err ErrNoSupportLanguage
    | Some off =>
        let* values := decodeInfoW s w off in
        let '(s', p) := alloc s (make_infoW (mFields (rMeta (lR s))) values) in
        Ok (s', (node, p, mask))
    end in
  if cache then match pget node (lCache s) with Some p => Ok (s, (node, p, mask)) | None => slow end
  else slow.
(** db/format/ipdb/querier.go:36-39 Query, db/query/query.go:95-102: pointer and mask *)
Definition QueryW (s : Live) (ip : bytes) : res (Live * (nat * nat)) :=
  let* ' (s', (_, p, mask)) := QueryInternalW s ip true in Ok (s', (p, mask)).
(** db/format/ipdb/querier.go:23-34 BuildCache (addresses as in Ipdb.BuildCache) *)
Fixpoint BuildCacheW (s : Live) (ips : list (option bytes)) : res Live :=
  match ips with
  | [] => Ok s
  | None :: rest => BuildCacheW s rest
  | Some ip :: rest =>
      match QueryInternalW s ip false with
      | Ok (s', (node, p, _)) => BuildCacheW (mkLive (lMem s') (lHead s') (lR s') ((node, p) :: lCache s') (lHeap s')) rest
      | Err _ => BuildCacheW s rest
      | Panic => Panic
      | OutOfFuel => OutOfFuel
      end
  end.
(** db/format/ipdb/querier.go:15-21 newQuerier, then db/query/query.go:29-40 *)
Definition openW (unmarshal : bytes -> option MetaData) (data : bytes) (ips : list (option bytes)) : res Live :=
  let* r := newReaderFromBytes unmarshal data in
  BuildCacheW (mkLive data (length data - length (rData r)) r [] []) ips.

(** What a caller does: asks for an address, stores into a result it was given, or
    overwrites the slice the database was opened from. *)
(* callers of db/query/query.go:29-40,95-102 *)
Inductive event := EvQuery (ip : bytes) | EvWrite (p : nat) (i : IpInfo) | EvData (mem : bytes).
(** None: the program crashed, or wrote to something it was never given. *)
(* callers of db/query/query.go:29-40,95-102 *)
Definition exec (s : Live) (e : event) : option Live :=
  match e with
  | EvQuery ip => match QueryW s ip with Ok (s', _) => Some s' | Err _ => Some s | _ => None end
  | EvWrite p i => if (p <? length (lHeap s))%nat then Some (mkLive (lMem s) (lHead s) (lR s) (lCache s) (upd (lHeap s) p (own_info i))) else None
  | EvData mem => if (length mem =? length (lMem s))%nat then Some (mkLive mem (lHead s) (lR s) (lCache s) (lHeap s)) else None
  end.
Fixpoint exec_all (s : Live) (l : list event) : option Live :=
  match l with [] => Some s | e :: r => match exec s e with Some s' => exec_all s' r | None => None end end.
