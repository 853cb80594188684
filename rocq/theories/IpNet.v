(** Model of /repo/ipnet (ip.go, ipnet.go, range.go). *)
From Verif Require Export NetIP.

(** ipnet/ip.go:9-11 Uint32ToIPv4 (argument taken mod 2^32 as a uint32). *)
Definition Uint32ToIPv4 (u : N) : bytes :=
  IPv4 (n2b (N.shiftr u 24)) (n2b (N.shiftr u 16)) (n2b (N.shiftr u 8)) (n2b u).

(** ipnet/ip.go:14-17 IPv4ToUint32: indexes To4(), which panics on nil.
    The uint32 additions cannot overflow. *)
Definition IPv4ToUint32 (ip : bytes) : res N :=
  match to4 ip with
  | [a; b; c; d] =>
      Ok (N.shiftl (b2n a) 24 + N.shiftl (b2n b) 16 + N.shiftl (b2n c) 8 + b2n d)%N
  | _ => Panic
  end.

(** ipnet/ip.go:28-34 Uint64ToIP, :37-44 Uint64ToIP2 *)
Definition u64_bytes (u : N) : bytes :=
  map (fun s => n2b (N.shiftr u s)) [56; 48; 40; 32; 24; 16; 8; 0]%N.
Definition Uint64ToIP (u : N) : bytes := u64_bytes u ++ repeat x00 8.
Definition Uint64ToIP2 (high low : N) : bytes := u64_bytes high ++ u64_bytes low.

(** ipnet/ip.go:46-57 allFF / IsAllMask *)
Definition IsAllMask (ip : bytes) : bool := all_ff ip.

(** ipnet/ip.go:60-70 NextIP.  The loop runs from the last byte; [next_aux]
    returns whether every byte so far wrapped to 0 (the loop goes on). *)
Fixpoint next_aux (ip : bytes) : bool * bytes :=
  match ip with
  | [] => (true, [])
  | b :: r =>
      let '(carry, r') := next_aux r in
      if carry then let b' := n2b (b2n b + 1) in (byte_eqb b' x00, b' :: r')
      else (false, b :: r')
  end.
Definition NextIP (ip : bytes) : bytes := snd (next_aux ip).

(** ipnet/ip.go:73-84 IPLess *)
Definition IPLess (a b : bytes) : bool :=
  let left := if length a <? length b then to16 a else a in
  let right := if length b <? length a then to16 b else b in
  match lex_compare left right with Lt => true | _ => false end.

(** ipnet/ip.go:87-95 IsFirstIP *)
Definition IsFirstIP (ip : bytes) (ipv6 : bool) : bool :=
  if ipv6 then ip_equal ip IPv6zero
  else if length ip =? 16 then bytes_eqb (skipn 12 ip) [x00; x00; x00; x00]
  else ip_equal ip IPv4zero.

(** ipnet/ip.go:97-104 IpNet *)
Definition IpNet (addr : bytes) (mask : Z) : IPNet :=
  let ip := if is_nil (to4 addr) then to16 addr else to4 addr in
  let cidrMask := CIDRMask mask (Z.of_nat (length ip) * 8) in
  mkNet (ip_mask addr cidrMask) cidrMask.

(** ipnet/ipnet.go:25-33 LastIP: res[i] = ip[i] | ^mask[i] for i < len(ip);
    panics when the mask is shorter than the address. *)
Definition or_not (a m : byte) : byte := n2b (N.lor (b2n a) (255 - b2n m)).
Definition LastIP (n : IPNet) : res bytes :=
  if length (nMask n) <? length (nIP n) then Panic
  else Ok (zip_with or_not (nIP n) (nMask n)).

(** ipnet/ipnet.go:7-10 NextStart *)
Definition NextStart (n : IPNet) : res bytes := let* l := LastIP n in Ok (NextIP l).

(** ipnet/ipnet.go:15-22 MaskLess *)
Definition MaskLess (a b : IPNet) : bool :=
  if length (nIP a) =? length (nIP b)
  then fst (mask_size (nMask b)) <? fst (mask_size (nMask a))
  else length (nIP a) <? length (nIP b).

(** ipnet/ipnet.go:36-38 Contains *)
Definition Contains (start end_ ip : bytes) : bool :=
  negb (IPLess ip start) && IPLess ip (NextIP end_).

(** ipnet/range.go:25-28 Range *)
Record Range := mkRange { rStart : bytes; rEnd : bytes }.

(** ipnet/range.go:32-37 NewRange *)
Definition NewRange (n : IPNet) : res Range :=
  let* l := LastIP n in Ok (mkRange (to16 (nIP n)) (to16 l)).

(** ipnet/range.go:40-50 Range.Join: returned flag and new receiver. *)
Definition Join (r r2 : Range) : bool * Range :=
  if IPLess (rStart r2) (rStart r) || IPLess (NextIP (rEnd r)) (rStart r2) then (false, r)
  else (true, mkRange (rStart r) (if negb (IPLess (rEnd r2) (rEnd r)) then rEnd r2 else rEnd r)).

(** ipnet/range.go:53-70 Range.CommonRange *)
Definition CommonRange (r : Range) (ip : bytes) (r2 : Range) : bool * Range :=
  if IPLess (rEnd r2) (rStart r) || IPLess (NextIP (rEnd r)) (rStart r2) then (false, r)
  else
    let start := if IPLess (rStart r) (rStart r2) then rStart r2 else rStart r in
    let end_ := if IPLess (rEnd r2) (rEnd r) then rEnd r2 else rEnd r in
    if negb (Contains start end_ ip) then (false, r) else (true, mkRange start end_).

(** ipnet/range.go:73-75 Range.Contains *)
Definition RangeContains (r : Range) (ip : bytes) : bool := Contains (rStart r) (rEnd r) ip.

(** ipnet/range.go:78-88 Range.JoinIPNet *)
Definition JoinIPNet (r : Range) (n : IPNet) : res (bool * Range) :=
  if IPLess (to16 (nIP n)) (rStart r) || IPLess (NextIP (rEnd r)) (to16 (nIP n))
  then Ok (false, r)
  else
    let* last := LastIP n in
    if negb (IPLess (to16 last) (rEnd r)) then Ok (true, mkRange (rStart r) (to16 last))
    else Ok (true, r).

(** math/bits.LeadingZeros8 / TrailingZeros (of a non-zero value) *)
(* Go math/bits.LeadingZeros8, called from ipnet/range.go:128 *)
Definition leading_zeros8 (x : N) : nat :=
  match x with N0 => 8 | _ => 7 - N.to_nat (N.log2 x) end.
(* Go math/bits.TrailingZeros, called from ipnet/range.go:139 *)
Fixpoint ptz (p : positive) : nat := match p with xO q => S (ptz q) | _ => O end.
(* Go math/bits.TrailingZeros, called from ipnet/range.go:139 *)
Definition trailing_zeros (x : N) : nat := match x with N0 => 64 | Npos p => ptz p end.

(** ipnet/range.go:116-132 PrefixSameLength *)
Fixpoint prefix_same_aux (a b : bytes) : nat :=
  match a, b with
  | x :: a', y :: b' =>
      let xor := N.lxor (b2n y) (b2n x) in
      if (xor =? 0)%N then 8 + prefix_same_aux a' b' else leading_zeros8 xor
  | _, _ => O
  end.
Definition PrefixSameLength (start end_ : bytes) : nat :=
  if length start =? length end_ then prefix_same_aux start end_ else O.

(** ipnet/range.go:135-143 SuffixZeroLength (loop from the last byte). *)
Fixpoint suffix_zero_rev (l : bytes) : nat :=
  match l with
  | [] => O
  | b :: r => if (b2n b =? 0)%N then 8 + suffix_zero_rev r else trailing_zeros (b2n b)
  end.
Definition SuffixZeroLength (ip : bytes) : nat := suffix_zero_rev (rev ip).

(** ipnet/range.go:91-113 Range.IPNets: one iteration per unit of fuel. *)
Definition ipnets_cidr (start end_ : bytes) : nat :=
  let bitLength := length start * 8 in
  let cidr := bitLength - SuffixZeroLength start in
  let p := PrefixSameLength start (NextIP end_) + 1 in
  let p := if bitLength <? p then 0 else p in
  if cidr <? p then p else cidr.
Fixpoint ipnets_loop (fuel : nat) (start end_ : bytes) : res (list IPNet) :=
  match fuel with
  | O => OutOfFuel
  | S k =>
      let bitLength := (Z.of_nat (length start) * 8)%Z in
      let n := mkNet start (CIDRMask (Z.of_nat (ipnets_cidr start end_)) bitLength) in
      let* last := LastIP n in
      if negb (IPLess last end_) then Ok [n]
      else let* rest := ipnets_loop k (NextIP last) end_ in Ok (n :: rest)
  end.
(** The loop has no bound in the code; 257 iterations always suffice (theorem
    [ipnets_fuel_enough] in the proofs). *)
(* ipnet/range.go:90-113 IPNets *)
Definition IPNets (r : Range) : res (list IPNet) :=
  ipnets_loop 257 (to16 (rStart r)) (to16 (rEnd r)).
