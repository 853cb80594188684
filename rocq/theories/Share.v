(** Model of /repo/ipnet once more, this time with memory: addresses and masks are slices of
    arrays, functions allocate arrays and store single bytes.  PropsShare.v relates it to
    IpNet.v.  A *Range or *net.IPNet is modelled by the slices it holds; a method that assigns
    to its receiver returns the new receiver. *)
From Verif Require Import Base NetIP IpNet.
Open Scope nat_scope.

(** All arrays allocated so far. *)
(* Go memory: make and net.IP literals at ipnet/ip.go:28-43, 61, ipnet/ipnet.go:28 *)
Definition mem := list bytes.
(** A net.IP or net.IPMask: array, first byte, length (nil has length 0). *)
(* Go slice headers, ipnet/ip.go:9-104, ipnet/ipnet.go:7-38, ipnet/range.go:25-143 *)
Record bslice := mkB { bArr : nat; bOff : nat; bLen : nat }.
(* Go nil slice: IP.To4, IP.To16, IP.Mask, called from ipnet/ip.go:98-103, ipnet/range.go:34-92 *)
Definition nilB : bslice := mkB 0 0 0.
(** What a slice holds. *)
(* Go slices, ipnet/ip.go:9-104 *)
Definition rd (m : mem) (s : bslice) : bytes := firstn (bLen s) (skipn (bOff s) (nth (bArr s) m [])).
(** s[lo:hi] *)
(* Go slice expression, ipnet/ip.go:65 *)
Definition subB (s : bslice) (lo hi : nat) : bslice := mkB (bArr s) (bOff s + lo) (hi - lo).

(** Code that uses memory. *)
(* Go statements, ipnet/ip.go:9-104, ipnet/ipnet.go:7-38, ipnet/range.go:25-143 *)
Definition M (A : Type) : Type := mem -> mem * res A.
(* Go: return *)
(* ipnet/ip.go:9-104 *)
Definition ret {A} (a : A) : M A := fun m => (m, Ok a).
(* Go: statement sequence *)
(* ipnet/ip.go:9-104 *)
Definition mbind {A B} (f : M A) (g : A -> M B) : M B := fun m =>
  let '(m, x) := f m in
  match x with Ok a => g a m | Err e => (m, Err e) | Panic => (m, Panic) | OutOfFuel => (m, OutOfFuel) end.
Notation "'let$' x := a 'in' b" := (mbind a (fun x => b)) (at level 200, x name, a at level 100, b at level 200).
(** make(net.IP, n), or a literal with these bytes *)
(* ipnet/ip.go:28-43 (literals), 61 (make), ipnet/ipnet.go:28 *)
Definition alloc (b : bytes) : M bslice := fun m => (m ++ [b], Ok (mkB (length m) 0 (length b))).
(** s[i] *)
(* ipnet/ip.go:63, ipnet/ipnet.go:30 *)
Definition getB (s : bslice) (i : nat) : M byte := fun m =>
  match nth_error (rd m s) i with Some b => (m, Ok b) | None => (m, Panic) end.
(** Bytes are overwritten. *)
(* Go stores, ipnet/ip.go:63-65, ipnet/ipnet.go:30 *)
Definition over (a : bytes) (i : nat) (b : bytes) : bytes := firstn i a ++ b ++ skipn (i + length b) a.
(* Go stores, ipnet/ip.go:63-65, ipnet/ipnet.go:30 *)
Definition upd (m : mem) (k : nat) (f : bytes -> bytes) : mem := firstn k m ++ f (nth k m []) :: skipn (S k) m.
(** s[i] = b *)
(* ipnet/ip.go:63, ipnet/ipnet.go:30 *)
Definition putB (s : bslice) (i : nat) (b : byte) : M unit := fun m =>
  if i <? bLen s then (upd m (bArr s) (fun a => over a (bOff s + i) [b]), Ok tt) else (m, Panic).
(** copy(dst, src) *)
(* ipnet/ip.go:65 *)
Definition copyB (dst src : bslice) : M unit := fun m =>
  (upd m (bArr dst) (fun a => over a (bOff dst) (firstn (bLen dst) (rd m src))), Ok tt).

(** IP.To16: the argument itself when it has 16 bytes *)
(* Go package net, called from ipnet/ip.go:79-81, 100, ipnet/range.go:34-92 *)
Definition to16M (s : bslice) : M bslice := fun m =>
  if bLen s =? 4 then alloc (v4prefix ++ rd m s) m
  else if bLen s =? 16 then ret s m
  else ret nilB m.
(** IP.To4: the argument itself, or a part of it *)
(* Go package net, called from ipnet/ip.go:15, 98 *)
Definition to4M (s : bslice) : M bslice := fun m =>
  if bLen s =? 4 then ret s m
  else if (bLen s =? 16) && bytes_eqb (firstn 12 (rd m s)) v4prefix then ret (subB s 12 16) m
  else ret nilB m.
(** IP.Mask *)
(* Go package net, called from ipnet/ip.go:103 *)
Definition maskM (ip mask : bslice) : M bslice := fun m =>
  let mask := if (bLen mask =? 16) && (bLen ip =? 4) && all_ff (firstn 12 (rd m mask)) then subB mask 12 16 else mask in
  let ip := if (bLen mask =? 4) && (bLen ip =? 16) && bytes_eqb (firstn 12 (rd m ip)) v4prefix then subB ip 12 16 else ip in
  if bLen ip =? bLen mask then alloc (zip_with byte_and (rd m ip) (rd m mask)) m else ret nilB m.

(** ipnet/ip.go:60-70 NextIP: the loop, with [i] bytes to go *)
Fixpoint next_loopM (i : nat) (ip out : bslice) : M unit :=
  match i with
  | O => ret tt
  | S i =>
      let$ b := getB ip i in
      let c := n2b (b2n b + 1) in
      let$ _ := putB out i c in
      if byte_eqb c x00 then next_loopM i ip out else copyB out (subB ip 0 i)
  end.
(** ipnet/ip.go:60-70 NextIP *)
Definition NextIPM (ip : bslice) : M bslice :=
  let$ out := alloc (repeat x00 (bLen ip)) in
  let$ _ := next_loopM (bLen ip) ip out in
  ret out.
(** ipnet/ip.go:73-84 IPLess *)
Definition IPLessM (a b : bslice) : M bool :=
  let$ left := if bLen a <? bLen b then to16M a else ret a in
  let$ right := if bLen b <? bLen a then to16M b else ret b in
  fun m => (m, Ok match lex_compare (rd m left) (rd m right) with Lt => true | _ => false end).
(** A *net.IPNet *)
(* ipnet/ip.go:103, ipnet/range.go:105 *)
Record netM := mkNetM { mIP : bslice; mMask : bslice }.
(* net.CIDRMask, called from ipnet/ip.go:102, ipnet/range.go:105 *)
Definition CIDRMaskM (ones bits : Z) : M bslice :=
  if (((bits =? 32) || (bits =? 128)) && (0 <=? ones) && (ones <=? bits))%Z then alloc (CIDRMask ones bits) else ret nilB.
(** ipnet/ip.go:97-104 IpNet *)
Definition IpNetM (addr : bslice) (mask : Z) : M netM :=
  let$ ip4 := to4M addr in
  let$ ip := if bLen ip4 =? 0 then to16M addr else ret ip4 in
  let$ cm := CIDRMaskM mask (Z.of_nat (bLen ip) * 8) in
  let$ out := maskM addr cm in
  ret (mkNetM out cm).
(** ipnet/ipnet.go:29-31: the loop of LastIP, from byte [i] on, [k] bytes to go *)
Fixpoint last_loopM (k i : nat) (ip mask out : bslice) : M unit :=
  match k with
  | O => ret tt
  | S k =>
      let$ a := getB ip i in
      let$ b := getB mask i in
      let$ _ := putB out i (or_not a b) in
      last_loopM k (S i) ip mask out
  end.
(** ipnet/ipnet.go:25-33 LastIP *)
Definition LastIPM (n : netM) : M bslice :=
  let$ out := alloc (repeat x00 (bLen (mIP n))) in
  let$ _ := last_loopM (bLen (mIP n)) 0 (mIP n) (mMask n) out in
  ret out.
(** ipnet/ipnet.go:7-10 NextStart *)
Definition NextStartM (n : netM) : M bslice := let$ l := LastIPM n in NextIPM l.
(** ipnet/ipnet.go:36-38 Contains *)
Definition ContainsM (start end_ ip : bslice) : M bool :=
  let$ b := IPLessM ip start in
  if b then ret false else
  let$ next := NextIPM end_ in
  IPLessM ip next.
(** A *Range, ipnet/range.go:25-28 *)
Record rangeM := mkRangeM { mStart : bslice; mEnd : bslice }.
(** ipnet/range.go:32-37 NewRange *)
Definition NewRangeM (n : netM) : M rangeM :=
  let$ start := to16M (mIP n) in
  let$ last := LastIPM n in
  let$ end_ := to16M last in
  ret (mkRangeM start end_).
(** IPLess(b, a) || IPLess(NextIP(c), d) *)
(* ipnet/range.go:42, 54, 80 *)
Definition apartM (a b : bslice) (c d : bslice) : M bool :=
  let$ x := IPLessM a b in
  if x then ret true else
  let$ next := NextIPM c in
  IPLessM next d.
(** ipnet/range.go:40-50 Range.Join *)
Definition JoinM (r r2 : rangeM) : M (bool * rangeM) :=
  let$ apart := apartM (mStart r2) (mStart r) (mEnd r) (mStart r2) in
  if apart then ret (false, r) else
  let$ less := IPLessM (mEnd r2) (mEnd r) in
  ret (true, if negb less then mkRangeM (mStart r) (mEnd r2) else r).
(** ipnet/range.go:53-70 Range.CommonRange *)
Definition CommonRangeM (r : rangeM) (ip : bslice) (r2 : rangeM) : M (bool * rangeM) :=
  let$ apart := apartM (mEnd r2) (mStart r) (mEnd r) (mStart r2) in
  if apart then ret (false, r) else
  let$ x := IPLessM (mStart r) (mStart r2) in
  let start := if x then mStart r2 else mStart r in
  let$ y := IPLessM (mEnd r2) (mEnd r) in
  let end_ := if y then mEnd r2 else mEnd r in
  let$ c := ContainsM start end_ ip in
  ret (if negb c then (false, r) else (true, mkRangeM start end_)).
(** ipnet/range.go:78-88 Range.JoinIPNet *)
Definition JoinIPNetM (r : rangeM) (n : netM) : M (bool * rangeM) :=
  let$ s := to16M (mIP n) in
  let$ x := IPLessM s (mStart r) in
  let$ apart := if x then ret true else (let$ next := NextIPM (mEnd r) in let$ s2 := to16M (mIP n) in IPLessM next s2) in
  if apart then ret (false, r) else
  let$ last := LastIPM n in
  let$ l16 := to16M last in
  let$ less := IPLessM l16 (mEnd r) in
  if negb less then
    let$ last := LastIPM n in
    let$ l16 := to16M last in
    ret (true, mkRangeM (mStart r) l16)
  else ret (true, r).
(** ipnet/range.go:94-112: the loop of IPNets, one iteration per unit of fuel *)
Fixpoint ipnets_loopM (fuel : nat) (start end_ : bslice) : M (list netM) :=
  match fuel with
  | O => fun m => (m, OutOfFuel)
  | S k =>
      let$ next := NextIPM end_ in
      let$ cidr := (fun m =>
        let bitLength := bLen start * 8 in
        let cidr := bitLength - SuffixZeroLength (rd m start) in
        let p := PrefixSameLength (rd m start) (rd m next) + 1 in
        let p := if bitLength <? p then 0 else p in
        (m, Ok (if cidr <? p then p else cidr))) in
      let$ mask := CIDRMaskM (Z.of_nat cidr) (Z.of_nat (bLen start) * 8) in
      let n := mkNetM start mask in
      let$ last := LastIPM n in
      let$ less := IPLessM last end_ in
      if negb less then ret [n] else
      let$ start := NextIPM last in
      let$ rest := ipnets_loopM k start end_ in
      ret (n :: rest)
  end.
(** ipnet/range.go:91-113 Range.IPNets *)
Definition IPNetsM (r : rangeM) : M (list netM) :=
  let$ start := to16M (mStart r) in
  let$ end_ := to16M (mEnd r) in
  ipnets_loopM 257 start end_.
