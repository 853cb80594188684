(** Model of the HTTP server over an .ipdb file as a program of many threads: every request is
    a thread of its own (net/http starts one goroutine per connection, cmd/server/server.go:31-35),
    and one step of the system is one access of one thread to the memory that the threads
    share.  The functions are those of Ipdb.v and Alias.v, with their memory accesses made
    explicit; PropsConc.v relates them. *)
From Verif Require Import Base NetIP NetText Inf Ipdb Alias Json Facade.
Open Scope Z_scope.

(** A computation with accesses to the shared memory: a byte of the file, an entry of the bit
    cache, an entry of the query cache (a Go map), a new result, a field of a result (a result
    has eight, numbered as in db/inf/db_inf.go:8-20).  [Ret] is the end. *)
Inductive prog (A : Type) : Type :=
| Ret (r : res A)
| RdMem (i : nat) (k : byte -> prog A)
| RdBits (i : nat) (k : N -> prog A)
| RdMap (z : Z) (k : option nat -> prog A)
| New (k : nat -> prog A)
| WrF (p f : nat) (v : gostr) (k : prog A)
| RdF (p f : nat) (k : gostr -> prog A).
Arguments Ret {A}. Arguments RdMem {A}. Arguments RdBits {A}. Arguments RdMap {A}. Arguments New {A}. Arguments WrF {A}. Arguments RdF {A}.
(* sequencing of Go statements, as in db/format/ipdb/reader.go:186-214; an error return or a panic ends the rest *)
Fixpoint pbind {A B} (p : prog A) (f : A -> prog B) : prog B :=
  match p with
  | Ret (Ok a) => f a
  | Ret (Err e) => Ret (Err e)
  | Ret Panic => Ret Panic
  | Ret OutOfFuel => Ret OutOfFuel
  | RdMem i k => RdMem i (fun x => pbind (k x) f)
  | RdBits i k => RdBits i (fun x => pbind (k x) f)
  | RdMap z k => RdMap z (fun x => pbind (k x) f)
  | New k => New (fun x => pbind (k x) f)
  | WrF p i v k => WrF p i v (pbind k f)
  | RdF p i k => RdF p i (fun x => pbind (k x) f)
  end.
Notation "'do' x <- p ; e" := (pbind p (fun x => e)) (at level 200, x pattern, p at level 100, e at level 200).

(** What never changes after opening: the header of the reader and the length of its slices.
    db/format/ipdb/reader.go:33-43 *)
Record Consts := mkC { cHead : nat; cLen : nat; cFileSize : Z; cNodes : Z; cV4 : Z; cMeta : MetaData; cCont : option nat; cBits : option nat; cMem : nat }.
(* db/format/ipdb/reader.go:48-92 *)
Definition consts (s : Live) : Consts :=
  let r := lR s in
  mkC (lHead s) (length (lMem s) - lHead s) (rFileSize r) (rNodeCount r) (rV4offset r) (rMeta r) (rCont r)
      (match rCache r with Some l => Some (length l) | None => None end) (length (lMem s)).

(** [n] bytes of the file from [i]. *)
(* encoding/binary BigEndian.Uint16 and Uint32, called from db/format/ipdb/reader.go:252,261 *)
Fixpoint readBytes (i n : nat) : prog bytes :=
  match n with O => Ret (Ok []) | S k => RdMem i (fun b => do l <- readBytes (S i) k; Ret (Ok (b :: l))) end.
(** db.data[lo:hi], then its bytes *)
(* db/format/ipdb/reader.go:252,261 *)
Definition readSlice (c : Consts) (lo hi : Z) : prog bytes :=
  if lo <? 0 then Ret Panic else if hi <? 0 then Ret Panic
  else if ((Z.to_nat lo <=? Z.to_nat hi)%nat && (Z.to_nat hi <=? cLen c)%nat)
       then readBytes (cHead c + Z.to_nat lo) (Z.to_nat hi - Z.to_nat lo) else Ret Panic.
(** db/format/ipdb/reader.go:250-253 readNode *)
Definition readNodeP (c : Consts) (node : Z) (bit : bool) : prog Z :=
  let off := node * 8 + (if bit then 4 else 0) in
  do b <- readSlice c off (off + 4); Ret (Ok (Z.of_N (val b))).
(** db/format/ipdb/reader.go:240-248 readDepth *)
Fixpoint readDepthP (c : Consts) (cnt i : nat) (node : Z) (ip : bytes) : prog (Z * nat) :=
  match cnt with
  | O => Ret (Ok (node, i))
  | S k =>
      if cNodes c <=? node then Ret (Ok (node, i))
      else do b <- Ret (ip_bit ip i); do node <- readNodeP c node b; readDepthP c k (S i) node ip
  end.
(** db/format/ipdb/reader.go:108-113 getCache; the index is checked against the length *)
Definition getCacheP (len : nat) (ip : bytes) : prog (Z * nat) :=
  do i <- Ret (bytesToIndex ip);
  if (N.to_nat i <? len)%nat then RdBits (N.to_nat i) (fun r => Ret (Ok (Z.of_N (N.shiftr r 5), N.to_nat (N.land r 31)))) else Ret Panic.
(** db/format/ipdb/reader.go:216-238 search *)
Definition searchP (c : Consts) (ip : bytes) (bitCount : nat) : prog (Z * nat) :=
  let node := if (bitCount =? 32)%nat then cV4 c else 0 in
  let slow node i :=
    do (node, i) <- readDepthP c (bitCount - i) i node ip;
    if cNodes c <? node then Ret (Ok (node, i)) else Ret (Err ErrDataNotExists) in
  match cBits c with
  | Some len =>
      if (bitCount =? 32)%nat then
        do (node, i) <- getCacheP len ip;
        if cNodes c <? node then Ret (Ok (node, i)) else slow node i
      else slow node 0%nat
  | None => slow node 0%nat
  end.
(** db/format/ipdb/reader.go:255-268 resolve: the window of the record *)
Definition resolveP (c : Consts) (node : Z) : prog (nat * nat) :=
  let resolved := node - cNodes c + cNodes c * 8 in
  if cFileSize c <=? resolved then Ret (Err ErrDatabaseError)
  else
    do sz <- readSlice c resolved (resolved + 2);
    let size := Z.of_N (val sz) in
    if Z.of_nat (cLen c) <? resolved + 2 + size then Ret (Err ErrDatabaseError)
    else Ret (Ok (Z.to_nat (resolved + 2), Z.to_nat size)).
(** db/format/ipdb/reader.go:186-214 find0 *)
Definition find0P (c : Consts) (ipv : bytes) : prog (Z * (nat * nat) * nat) :=
  let go ip bitCount :=
    do (node, mask) <- searchP c ip bitCount;
    do w <- resolveP c node; Ret (Ok (node, w, mask)) in
  if negb (is_nil (to4 ipv)) then
    if HasIPv4 (cMeta c) then go (to4 ipv) 32%nat else Ret (Err ErrNoSupportIPv4)
  else if negb (is_nil (to16 ipv)) then
    if HasIPv6 (cMeta c) then go (to16 ipv) 128%nat else Ret (Err ErrNoSupportIPv6)
  else Ret (Err ErrIPFormat).
(** An error result is replaced by zero values (the caller drops it). *)
(* db/format/ipdb/querier.go:42 *)
Fixpoint ptry {A} (d : A) (p : prog A) : prog A :=
  match p with
  | Ret (Err _) => Ret (Ok d)
  | Ret r => Ret r
  | RdMem i k => RdMem i (fun x => ptry d (k x))
  | RdBits i k => RdBits i (fun x => ptry d (k x))
  | RdMap z k => RdMap z (fun x => ptry d (k x))
  | New k => New (fun x => ptry d (k x))
  | WrF p i v k => WrF p i v (ptry d k)
  | RdF p i k => RdF p i (fun x => ptry d (k x))
  end.
(** An error result becomes None (the caller looks at it). *)
(* cmd/server/server.go:24-28 *)
Fixpoint pcatch {A} (p : prog A) : prog (option A) :=
  match p with
  | Ret (Ok a) => Ret (Ok (Some a))
  | Ret (Err _) => Ret (Ok None)
  | Ret Panic => Ret Panic
  | Ret OutOfFuel => Ret OutOfFuel
  | RdMem i k => RdMem i (fun x => pcatch (k x))
  | RdBits i k => RdBits i (fun x => pcatch (k x))
  | RdMap z k => RdMap z (fun x => pcatch (k x))
  | New k => New (fun x => pcatch (k x))
  | WrF p i v k => WrF p i v (pcatch k)
  | RdF p i k => RdF p i (fun x => pcatch (k x))
  end.
(** The bytes of a string; a window stays inside the slice it was cut from. *)
(* reading a Go string: db/format/ipdb/reader.go:145-146,152, cmd/server/server.go:29 *)
Definition readStr (c : Consts) (g : gostr) : prog bytes :=
  match g with Own s => Ret (Ok s) | Win off len => readBytes off (Nat.min len (cMem c - off)) end.
(** db/format/ipdb/reader.go:144-171 decodeInfo *)
Definition decodeInfoP (c : Consts) (w : nat * nat) (off : Z) : prog (list gostr) :=
  let start := (cHead c + fst w)%nat in
  do text <- readStr c (Win start (snd w));
  let tmp := cuts start 0 text in
  let n := Z.of_nat (length (mFields (cMeta c))) in
  if Z.of_nat (length tmp) <? off + n then Ret (Err ErrDatabaseError)
  else if off <? 0 then Ret Panic
  else
    do ret <- Ret (slice tmp (Z.to_nat off) (Z.to_nat (off + n)));
    match cCont c with
    | None => Ret (Ok ret)
    | Some i =>
        do g <- Ret (idx ret i);
        do v <- readStr c g;
        Ret (Ok (upd ret i (if bytes_eqb (cont_name v) v then g else Own (cont_name v))))
    end.
(** Which field of the result a column is stored in. *)
(* db/format/ipdb/querier.go:58-78 *)
Definition field_no (f : bytes) : option nat :=
  if bytes_eqb f FieldCountryName then Some 0%nat
  else if bytes_eqb f FieldRegionName then Some 2%nat
  else if bytes_eqb f FieldCityName then Some 3%nat
  else if bytes_eqb f FieldISPDomain then Some 5%nat
  else if bytes_eqb f fAsn then Some 4%nat
  else if bytes_eqb f FieldContinentCode then Some 6%nat
  else if bytes_eqb f fLine then Some 7%nat
  else if bytes_eqb f fDistrict then Some 1%nat
  else None.
(* db/format/ipdb/querier.go:57-78 *)
Fixpoint storeP (p : nat) (l : list (bytes * gostr)) : prog unit :=
  match l with
  | [] => Ret (Ok tt)
  | (f, v) :: r => match field_no f with Some k => WrF p k v (storeP p r) | None => storeP p r end
  end.
(** db/format/ipdb/querier.go:36-39 Query, 41-80 QueryInternal *)
Definition queryP (c : Consts) (ip : bytes) : prog (nat * nat) :=
  do (node, w, mask) <- ptry (0, (0%nat, 0%nat), 0%nat) (find0P c ip);
  RdMap node (fun hit =>
    match hit with
    | Some p => Ret (Ok (p, mask))
    | None =>
        match assoc (str "CN") (mLanguages (cMeta c)) with
        | None => Ret (Err ErrNoSupportLanguage)
        | Some off =>
            do values <- decodeInfoP c w off;
            New (fun p => do _ <- storeP p (combine (mFields (cMeta c)) values); Ret (Ok (p, mask)))
        end
    end).
(** The fields of a result and their texts. *)
(* encoding/json Marshal, called from cmd/server/server.go:26 *)
Fixpoint fieldsP (c : Consts) (p : nat) (l : list nat) : prog (list bytes) :=
  match l with
  | [] => Ret (Ok [])
  | f :: r => RdF p f (fun g => do v <- readStr c g; do vs <- fieldsP c p r; Ret (Ok (v :: vs)))
  end.
Definition info_of (l : list bytes) : IpInfo :=
  mkInfo (nth 0 l []) (nth 1 l []) (nth 2 l []) (nth 3 l []) (nth 4 l []) (nth 5 l []) (nth 6 l []) (nth 7 l []).
(** cmd/server/server.go:16-30: one request.  [ver]: the version, made from the constants. *)
Definition handler (nl ne : bool) (ver : VersionInfo) (c : Consts) (path : bytes) : prog (Z * bytes) :=
  if bytes_eqb path (str "/version") then Ret (Ok (200, marshal_version nl ne ver))
  else
    match path with
    | [] => Ret Panic
    | _ :: text =>
        match ParseIP text with
        | None => Ret (Ok (404, []))
        | Some ip =>
            do o <- pcatch (queryP c ip);
            match o with
            | None => Ret (Ok (404, []))
            | Some (p, _) => do l <- fieldsP c p (seq 0 8); Ret (Ok (200, marshal_info (info_of l)))
            end
        end
    end.

(* ------------------------------------------------------------------ *)
(** * The machine *)
(** The shared memory. *)
(* db/format/ipdb/reader.go:33-43, db/format/ipdb/querier.go:10-13 *)
Record Shared := mkS { gMem : bytes; gBits : list N; gMap : list (Z * nat); gHeap : list WInfo }.
Definition shared (s : Live) : Shared := mkS (lMem s) (match rCache (lR s) with Some l => l | None => [] end) (lCache s) (lHeap s).
(** A field of a result. *)
(* db/inf/db_inf.go:8-20 *)
Definition get_f (w : WInfo) (f : nat) : gostr :=
  nth f [wCountry w; wDistrict w; wProvince w; wCity w; wAsn w; wIsp w; wContinent w; wLine w] (Own []).
Definition put_f (w : WInfo) (f : nat) (v : gostr) : WInfo :=
  let l := upd [wCountry w; wDistrict w; wProvince w; wCity w; wAsn w; wIsp w; wContinent w; wLine w] f v in
  let g k := nth k l (Own []) in mkW (g 0%nat) (g 1%nat) (g 2%nat) (g 3%nat) (g 4%nat) (g 5%nat) (g 6%nat) (g 7%nat).
(** One access. *)
(* Go memory model: a program without data races behaves as an interleaving of its accesses;
   the program is cmd/server/server.go:14-37 *)
Definition act {A} (s : Shared) (p : prog A) : option (Shared * prog A) :=
  match p with
  | Ret _ => None
  | RdMem i k => Some (s, k (nth i (gMem s) x00))
  | RdBits i k => Some (s, k (nth i (gBits s) 0%N))
  | RdMap z k => Some (s, k (pget z (gMap s)))
  | New k => Some (mkS (gMem s) (gBits s) (gMap s) (gHeap s ++ [emptyW]), k (length (gHeap s)))
  | WrF p f v k => Some (mkS (gMem s) (gBits s) (gMap s) (upd (gHeap s) p (put_f (nth p (gHeap s) emptyW) f v)), k)
  | RdF p f k => Some (s, k (get_f (nth p (gHeap s) emptyW) f))
  end.
(** A request being served: its path, how many accesses it has made, the rest of its program. *)
(* net/http: one goroutine per connection, cmd/server/server.go:32-36 *)
Record thread := mkT { tPath : bytes; tCount : nat; tProg : prog (Z * bytes) }.
(** The server: a request arrives, or some thread makes one access. *)
(* cmd/server/server.go:14-37 *)
Inductive serve (start : bytes -> prog (Z * bytes)) : Shared * list thread -> Shared * list thread -> Prop :=
| sv_request s ts path : serve start (s, ts) (s, ts ++ [mkT path 0 (start path)])
| sv_access s ts i path n p s' p' : nth_error ts i = Some (mkT path n p) -> act s p = Some (s', p') ->
    serve start (s, ts) (s', upd ts i (mkT path (S n) p')).
(* cmd/server/server.go:14-37 *)
Inductive history (start : bytes -> prog (Z * bytes)) (st0 : Shared * list thread) : Shared * list thread -> Prop :=
| hi_start : history start st0 st0
| hi_step st st' : history start st0 st -> serve start st st' -> history start st0 st'.
(** The next accesses of two threads touch the same memory and one of them writes. *)
(* Go memory model: data race; stores are in db/format/ipdb/querier.go:57-78 *)
Definition writes {A} (p : prog A) (o : nat) : Prop := match p with WrF q _ _ _ => q = o | _ => False end.
(* db/format/ipdb/querier.go:57-78, cmd/server/server.go:29 *)
Definition touches {A} (p : prog A) (o : nat) : Prop := match p with WrF q _ _ _ => q = o | RdF q _ _ => q = o | _ => False end.
