(** Text forms of numbers, addresses and networks: the parts of Go's strconv,
    fmt and net (go1.19 net/ip.go, net/parse.go) that /repo calls.  Outside
    /repo: part of the trusted base. *)
From Verif Require Export Base NetIP.
Open Scope N_scope.

(* ------------------------------------------------------------------ *)
(** * Numbers *)

(** Digits of n in a base, most significant first (no leading zero except for 0). *)
(* Go package net: IPNet.String as printed by db/format/plain/packer.go:23 *)
Fixpoint digits (base : N) (fuel : nat) (n : N) : list N :=
  match fuel with
  | O => []
  | S k => if n <? base then [n] else digits base k (n / base) ++ [n mod base]
  end.

(** '0'..'9', 'a'..'f' *)
(* Go package net: IPNet.String as printed by db/format/plain/packer.go:23 *)
Definition digit (d : N) : byte := if d <? 10 then n2b (48 + d) else n2b (87 + d).

(** strconv.Itoa / fmt %d of an unsigned value; lower-case hexadecimal as in
    net.appendHex *)
(* Go package net: IPNet.String as printed by db/format/plain/packer.go:23 *)
Definition dec (n : N) : bytes := map digit (digits 10 (S (N.size_nat n)) n).
(** strconv.AppendInt / fmt %d of a signed value *)
(* Go encoding/json Marshal, called from db/format/ipdb/writer.go:90, db/format/plain/packer.go:14, cmd/server/server.go:17,28; fmt.Sprintf at db/field/operate/line.go:14,96 *)
Definition dec_int (z : Z) : bytes := if (z <? 0)%Z then x2d :: dec (Z.to_N (- z)) else dec (Z.to_N z).
(* Go package net: IPNet.String as printed by db/format/plain/packer.go:23 *)
Definition hex (n : N) : bytes := map digit (digits 16 (S (N.size_nat n)) n).

(* Go package net: ParseIP, called from db/query/query.go:43, db/format/memip/dumper.go:63,67, db/format/ipdb/querier.go:28, ipnet/ip.go:21 *)
Definition undec (c : byte) : option N :=
  let n := b2n c in if (48 <=? n) && (n <=? 57) then Some (n - 48) else None.
(* Go package net: ParseIP, called from db/query/query.go:43, db/format/memip/dumper.go:63,67, db/format/ipdb/querier.go:28, ipnet/ip.go:21 *)
Definition unhex (c : byte) : option N :=
  let n := b2n c in
  if (48 <=? n) && (n <=? 57) then Some (n - 48)
  else if (97 <=? n) && (n <=? 102) then Some (n - 87)
  else if (65 <=? n) && (n <=? 70) then Some (n - 55) else None.

(** Longest prefix of digits: value, number of digits, rest; None when a prefix
    reaches the bound. *)
(* Go package net: ParseIP, called from db/query/query.go:43, db/format/memip/dumper.go:63,67, db/format/ipdb/querier.go:28, ipnet/ip.go:21 *)
Fixpoint scan_num (und : byte -> option N) (base big : N) (acc : N) (cnt : nat) (s : bytes)
  : option (N * nat * bytes) :=
  match s with
  | [] => Some (acc, cnt, [])
  | c :: r =>
      match und c with
      | None => Some (acc, cnt, s)
      | Some d => let n := acc * base + d in
                  if big <=? n then None else scan_num und base big n (S cnt) r
      end
  end.

(** net.dtoi, net.xtoi (big = 0xFFFFFF); None for !ok *)
(* Go package net: ParseIP, called from db/query/query.go:43, db/format/memip/dumper.go:63,67, db/format/ipdb/querier.go:28, ipnet/ip.go:21 *)
Definition some_digits (r : option (N * nat * bytes)) : option (N * nat * bytes) :=
  match r with Some (_, O, _) => None | x => x end.
(* Go package net: ParseIP, called from db/query/query.go:43, db/format/memip/dumper.go:63,67, db/format/ipdb/querier.go:28, ipnet/ip.go:21 *)
Definition dtoi (s : bytes) := some_digits (scan_num undec 10 0xffffff 0 0 s).
(* Go package net: ParseIP, called from db/query/query.go:43, db/format/memip/dumper.go:63,67, db/format/ipdb/querier.go:28, ipnet/ip.go:21 *)
Definition xtoi (s : bytes) := some_digits (scan_num unhex 16 0xffffff 0 0 s).

(** strconv.ParseUint(s, 10, 32) (None for an error) *)
(* strconv.ParseUint(s, 10, 32), called from db/format/memip/dumper.go:75,79 *)
Definition ParseUint32 (s : bytes) : option N :=
  match some_digits (scan_num undec 10 (2 ^ 32) 0 0 s) with
  | Some (n, _, []) => Some n
  | _ => None
  end.

(* ------------------------------------------------------------------ *)
(** * Addresses *)

(** IP.String for four bytes *)
(* Go package net: IPNet.String as printed by db/format/plain/packer.go:23 *)
Definition dotted (ip : bytes) : bytes := join x2e (map (fun b => dec (b2n b)) ip).

(** The 16-bit groups of an IPv6 address *)
(* Go package net: IPNet.String as printed by db/format/plain/packer.go:23 *)
Fixpoint groups (ip : bytes) : list N :=
  match ip with
  | a :: b :: r => (b2n a * 256 + b2n b) :: groups r
  | _ => []
  end.
(* Go package net: IPNet.String as printed by db/format/plain/packer.go:23 *)
Definition ungroup (ws : list N) : bytes := flat_map (be_enc 2) ws.

(** The first longest run of zero groups [e0, e1); (0, 0) when there is none.
    [i] is the group looked at. *)
(* Go package net: IPNet.String as printed by db/format/plain/packer.go:23 *)
Fixpoint zeros (ws : list N) : nat :=
  match ws with
  | w :: r => if w =? 0 then S (zeros r) else O
  | [] => O
  end.
(* Go package net: IPNet.String as printed by db/format/plain/packer.go:23 *)
Fixpoint longest_run (fuel i : nat) (ws : list N) (e0 e1 : nat) : nat * nat :=
  match fuel with
  | O => (e0, e1)
  | S k =>
      let n := zeros (skipn i ws) in
      if (e1 - e0 <? n)%nat then longest_run k (S (i + n)) ws i (i + n)
      else longest_run k (S i) ws e0 e1
  end.

(** IP.String for sixteen bytes not of the form ::ffff:a.b.c.d *)
(* Go package net: IPNet.String as printed by db/format/plain/packer.go:23 *)
Definition hexgroups (ws : list N) : bytes := join x3a (map hex ws).
(* Go package net: IPNet.String as printed by db/format/plain/packer.go:23 *)
Definition string6 (ip : bytes) : bytes :=
  let ws := groups ip in
  let '(e0, e1) := longest_run 8 0 ws 0 0 in
  if (e1 - e0 <=? 1)%nat then hexgroups ws
  else hexgroups (firstn e0 ws) ++ [x3a; x3a] ++ hexgroups (skipn e1 ws).

(** IP.String (nil prints <nil>; other lengths do not occur) *)
(* Go package net: IPNet.String as printed by db/format/plain/packer.go:23 *)
Definition ip_string (ip : bytes) : bytes :=
  if negb (is_nil (to4 ip)) then dotted (to4 ip)
  else if (length ip =? 16)%nat then string6 ip else str "<nil>".

(** net.parseIPv4: [n] more numbers, all but the first after a dot *)
(* Go package net: ParseIP, called from db/query/query.go:43, db/format/memip/dumper.go:63,67, db/format/ipdb/querier.go:28, ipnet/ip.go:21 *)
Fixpoint parse4 (n : nat) (first : bool) (s : bytes) : option bytes :=
  match n with
  | O => match s with [] => Some [] | _ => None end
  | S k =>
      match s with
      | [] => None
      | c :: r =>
          if negb first && negb (byte_eqb c x2e) then None
          else
            let s := if first then s else r in
            match dtoi s with
            | None => None
            | Some (v, cnt, rest) =>
                if 255 <? v then None
                else if (1 <? cnt)%nat && byte_eqb (hd x00 s) x30 then None
                else match parse4 k false rest with
                     | None => None
                     | Some bs => Some (n2b v :: bs)
                     end
            end
      end
  end.
(* Go package net: ParseIP, called from db/query/query.go:43, db/format/memip/dumper.go:63,67, db/format/ipdb/querier.go:28, ipnet/ip.go:21 *)
Definition parseIPv4 (s : bytes) : option bytes :=
  match parse4 4 true s with Some b => Some (v4prefix ++ b) | None => None end.

(** net.parseIPv6.  [ws] are the groups read so far, [ell] the group position of
    the ellipsis. *)
(* Go package net: ParseIP, called from db/query/query.go:43, db/format/memip/dumper.go:63,67, db/format/ipdb/querier.go:28, ipnet/ip.go:21 *)
Definition finish6 (ws : list N) (ell : option nat) (s : bytes) : option bytes :=
  match s with
  | _ :: _ => None
  | [] =>
      if (length ws <? 8)%nat then
        match ell with
        | None => None
        | Some e => Some (ungroup (firstn e ws ++ repeat 0 (8 - length ws) ++ skipn e ws))
        end
      else match ell with None => Some (ungroup ws) | Some _ => None end
  end.
(* Go package net: ParseIP, called from db/query/query.go:43, db/format/memip/dumper.go:63,67, db/format/ipdb/querier.go:28, ipnet/ip.go:21 *)
Fixpoint loop6 (fuel : nat) (ws : list N) (ell : option nat) (s : bytes) : option bytes :=
  match fuel with
  | O => finish6 ws ell s
  | S k =>
      match xtoi s with
      | None => None
      | Some (n, _, rest) =>
          if 0xffff <? n then None
          else
            match rest with
            | [] => finish6 (ws ++ [n]) ell []
            | c :: r =>
                if byte_eqb c x2e then
                  (* trailing IPv4 address *)
                  if (match ell with None => negb (length ws =? 6)%nat | Some _ => false end) then None
                  else if (6 <? length ws)%nat then None
                  else match parseIPv4 s with
                       | None => None
                       | Some ip4 => finish6 (ws ++ groups (skipn 12 ip4)) ell []
                       end
                else if negb (byte_eqb c x3a) then None
                else
                  match r with
                  | [] => None
                  | c2 :: r2 =>
                      if byte_eqb c2 x3a then
                        match ell with
                        | Some _ => None
                        | None =>
                            let ell := Some (S (length ws)) in
                            match r2 with
                            | [] => finish6 (ws ++ [n]) ell []
                            | _ => loop6 k (ws ++ [n]) ell r2
                            end
                        end
                      else loop6 k (ws ++ [n]) ell r
                  end
            end
      end
  end.
(* Go package net: ParseIP, called from db/query/query.go:43, db/format/memip/dumper.go:63,67, db/format/ipdb/querier.go:28, ipnet/ip.go:21 *)
Definition parseIPv6 (s : bytes) : option bytes :=
  match s with
  | x3a :: x3a :: r =>
      match r with
      | [] => Some IPv6zero
      | _ => loop6 8 [] (Some O) r
      end
  | _ => loop6 8 [] None s
  end.

(** net.ParseIP: the first dot or colon decides *)
(* Go package net: ParseIP, called from db/query/query.go:43, db/format/memip/dumper.go:63,67, db/format/ipdb/querier.go:28, ipnet/ip.go:21 *)
Fixpoint first_special (s : bytes) : option byte :=
  match s with
  | [] => None
  | c :: r => if byte_eqb c x2e || byte_eqb c x3a then Some c else first_special r
  end.
(* Go package net: ParseIP, called from db/query/query.go:43, db/format/memip/dumper.go:63,67, db/format/ipdb/querier.go:28, ipnet/ip.go:21 *)
Definition ParseIP (s : bytes) : option bytes :=
  match first_special s with
  | Some c => if byte_eqb c x2e then parseIPv4 s else parseIPv6 s
  | None => None
  end.

(* ------------------------------------------------------------------ *)
(** * Networks *)

(** IPNet.String (via networkNumberAndMask).  A mask that is not ones followed by
    zeros is printed in hexadecimal; that case is not modelled (<mask>). *)
(* Go package net: IPNet.String, see db/format/plain/packer.go:23 *)
Definition net_string (n : IPNet) : bytes :=
  let ip := if is_nil (to4 (nIP n)) then nIP n else to4 (nIP n) in
  let mask := if (length (nMask n) =? 16)%nat && (length ip =? 4)%nat then skipn 12 (nMask n) else nMask n in
  if negb ((length ip =? 4)%nat || (length ip =? 16)%nat) || negb (length mask =? length ip)%nat
  then str "<nil>"
  else match simpleMaskLength mask with
       | Some l => ip_string ip ++ x2f :: dec (N.of_nat l)
       | None => ip_string ip ++ str "/<mask>"
       end.

(** net.ParseCIDR: the network (None for an error) *)
(* Go package net: ParseCIDR, called from db/format/plain/dumper.go:88 *)
Fixpoint cut_at (sep : byte) (s : bytes) : option (bytes * bytes) :=
  match s with
  | [] => None
  | c :: r => if byte_eqb c sep then Some ([], r)
              else match cut_at sep r with Some (a, b) => Some (c :: a, b) | None => None end
  end.
(* Go package net: ParseCIDR, called from db/format/plain/dumper.go:88 *)
Definition ParseCIDR (s : bytes) : option IPNet :=
  match cut_at x2f s with
  | None => None
  | Some (a, m) =>
      let '(iplen, ip) := match parseIPv4 a with
                          | Some ip => (4, Some ip)
                          | None => (16, parseIPv6 a)
                          end in
      match ip, dtoi m with
      | Some ip, Some (n, _, []) =>
          if 8 * iplen <? n then None
          else let mask := CIDRMask (Z.of_N n) (Z.of_N (8 * iplen)) in
               Some (mkNet (ip_mask ip mask) mask)
      | _, _ => None
      end
  end.

Example text_case :
  ParseCIDR (net_string (mkNet (be_enc 16 (0x2001 * 2 ^ 112 + 1 * 2 ^ 64)) (CIDRMask 64 128)))
    = Some (mkNet (be_enc 16 (0x2001 * 2 ^ 112 + 1 * 2 ^ 64)) (CIDRMask 64 128))
  /\ net_string (mkNet (be_enc 16 (0x2001 * 2 ^ 112 + 1 * 2 ^ 64)) (CIDRMask 64 128)) = str "2001:0:0:1::/64"
  /\ ParseIP (str "1.2.3.4") = Some (IPv4 x01 x02 x03 x04)
  /\ ip_string (be_enc 16 1) = str "::1"
  /\ ip_string (be_enc 16 (0xfe80 * 2 ^ 112)) = str "fe80::"
  /\ ParseIP (str "::ffff:10.0.0.1") = Some (IPv4 x0a x00 x00 x01)
  /\ ParseIP (str "1::2::3") = None /\ ParseIP (str "01.2.3.4") = None.
Proof. repeat split; vm_compute; reflexivity. Qed.
