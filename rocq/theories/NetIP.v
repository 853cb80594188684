(** Model of the parts of Go's package net (go1.19 net/ip.go) that /repo calls.
    These are outside /repo; they are part of the trusted base. *)
From Verif Require Export Base.

(** net.v4InV6Prefix *)
(* Go package net, called from ipnet/ip.go:15-103 and ipnet/range.go:34-92 *)
Definition v4prefix : bytes := repeat x00 10 ++ [xff; xff].

(** net.IPv4(a,b,c,d): the 16-byte spelling *)
(* Go package net, called from ipnet/ip.go:15-103 and ipnet/range.go:34-92 *)
Definition IPv4 (a b c d : byte) : bytes := v4prefix ++ [a; b; c; d].

(** net.IPv4zero, net.IPv6zero *)
(* Go package net, called from ipnet/ip.go:15-103 and ipnet/range.go:34-92 *)
Definition IPv4zero : bytes := IPv4 x00 x00 x00 x00.
(* Go package net, called from ipnet/ip.go:15-103 and ipnet/range.go:34-92 *)
Definition IPv6zero : bytes := repeat x00 16.

(** IP.To4 (nil is []) *)
(* Go package net, called from ipnet/ip.go:15-103 and ipnet/range.go:34-92 *)
Definition to4 (ip : bytes) : bytes :=
  if length ip =? 4 then ip
  else if (length ip =? 16) && bytes_eqb (firstn 12 ip) v4prefix then skipn 12 ip
  else [].

(** IP.To16 (nil is []) *)
(* Go package net, called from ipnet/ip.go:15-103 and ipnet/range.go:34-92 *)
Definition to16 (ip : bytes) : bytes :=
  if length ip =? 4 then v4prefix ++ ip
  else if length ip =? 16 then ip
  else [].

(* Go package net, called from ipnet/ip.go:15-103 and ipnet/range.go:34-92 *)
Definition is_nil (ip : bytes) : bool := match ip with [] => true | _ => false end.

(** IP.Equal *)
(* Go package net, called from ipnet/ip.go:15-103 and ipnet/range.go:34-92 *)
Definition ip_equal (a b : bytes) : bool :=
  if length a =? length b then bytes_eqb a b
  else if (length a =? 4) && (length b =? 16) then
    bytes_eqb (firstn 12 b) v4prefix && bytes_eqb a (skipn 12 b)
  else if (length a =? 16) && (length b =? 4) then
    bytes_eqb (firstn 12 a) v4prefix && bytes_eqb (skipn 12 a) b
  else false.

(** bytes.Compare: lexicographic *)
(* Go bytes.Compare, called from ipnet/ip.go:83 *)
Fixpoint lex_compare (a b : bytes) : comparison :=
  match a, b with
  | [], [] => Eq
  | [], _ => Lt
  | _, [] => Gt
  | x :: a', y :: b' =>
      match N.compare (b2n x) (b2n y) with Eq => lex_compare a' b' | c => c end
  end.

(** net.CIDRMask(ones, bits): nil unless bits is 32 or 128 and 0 <= ones <= bits.
    One mask byte holding the top [n] (at most 8) bits: ^byte(0xff >> n). *)
(* Go package net, called from ipnet/ip.go:102-103, ipnet/ipnet.go:19-20, ipnet/range.go:105 *)
Definition mask_byte (n : nat) : byte := n2b (255 - N.shiftr 255 (N.of_nat n)).
(* Go package net, called from ipnet/ip.go:102-103, ipnet/ipnet.go:19-20, ipnet/range.go:105 *)
Fixpoint mask_bytes (len ones : nat) : bytes :=
  match len with
  | O => []
  | S k => if 8 <=? ones then xff :: mask_bytes k (ones - 8)
           else mask_byte ones :: mask_bytes k 0
  end.
(* Go package net, called from ipnet/ip.go:102-103, ipnet/ipnet.go:19-20, ipnet/range.go:105 *)
Definition CIDRMask (ones bits : Z) : bytes :=
  if (((bits =? 32) || (bits =? 128)) && (0 <=? ones) && (ones <=? bits))%Z
  then mask_bytes (Z.to_nat (bits / 8)) (Z.to_nat ones) else [].

(** simpleMaskLength: None for -1 (not of the form 1..10..0). *)
(* Go package net, called from ipnet/ip.go:102-103, ipnet/ipnet.go:19-20, ipnet/range.go:105 *)
Fixpoint lead_ones (fuel : nat) (v : N) : nat * N :=   (* for v&0x80 != 0 { n++; v <<= 1 } *)
  match fuel with
  | O => (O, v)
  | S k => if N.testbit v 7
           then let '(n, w) := lead_ones k ((v * 2) mod 256) in (S n, w)
           else (O, v)
  end.
(* Go package net, called from ipnet/ip.go:102-103, ipnet/ipnet.go:19-20, ipnet/range.go:105 *)
Fixpoint simpleMaskLength (m : bytes) : option nat :=
  match m with
  | [] => Some O
  | b :: r =>
      if byte_eqb b xff then
        match simpleMaskLength r with Some n => Some (8 + n) | None => None end
      else let '(n, w) := lead_ones 8 (b2n b) in
           if (w =? 0)%N && forallb (fun c => byte_eqb c x00) r then Some n else None
  end.
(** IPMask.Size: (ones, bits), (0,0) when not canonical. *)
(* Go package net, called from ipnet/ip.go:102-103, ipnet/ipnet.go:19-20, ipnet/range.go:105 *)
Definition mask_size (m : bytes) : nat * nat :=
  match simpleMaskLength m with
  | Some n => (n, 8 * length m)
  | None => (O, O)
  end.

(** net.IPNet *)
(* Go package net, called from ipnet/ip.go:102-103, ipnet/ipnet.go:19-20, ipnet/range.go:105 *)
Record IPNet := mkNet { nIP : bytes; nMask : bytes }.

(* Go package net, called from ipnet/ip.go:102-103, ipnet/ipnet.go:19-20, ipnet/range.go:105 *)
Definition all_ff (l : bytes) : bool := forallb (fun c => byte_eqb c xff) l.

(* Go package net, called from ipnet/ip.go:102-103, ipnet/ipnet.go:19-20, ipnet/range.go:105 *)
Definition byte_and (a b : byte) : byte := n2b (N.land (b2n a) (b2n b)).
(* Go package net, called from ipnet/ip.go:102-103, ipnet/ipnet.go:19-20, ipnet/range.go:105 *)
Fixpoint zip_with {A B C} (f : A -> B -> C) (l : list A) (m : list B) : list C :=
  match l, m with
  | a :: l', b :: m' => f a b :: zip_with f l' m'
  | _, _ => []
  end.

(** IP.Mask *)
(* Go package net, called from ipnet/ip.go:102-103, ipnet/ipnet.go:19-20, ipnet/range.go:105 *)
Definition ip_mask (ip mask : bytes) : bytes :=
  let mask := if (length mask =? 16) && (length ip =? 4) && all_ff (firstn 12 mask)
              then skipn 12 mask else mask in
  let ip := if (length mask =? 4) && (length ip =? 16) && bytes_eqb (firstn 12 ip) v4prefix
            then skipn 12 ip else ip in
  if length ip =? length mask then zip_with byte_and ip mask else [].
