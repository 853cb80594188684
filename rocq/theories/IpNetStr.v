(** Model of the rest of /repo/ipnet: the helpers that need address texts, and the
    sort.Interface methods of Ranges. *)
From Verif Require Import Base NetIP NetText IpNet.

(** ipnet/ip.go:20-25 IPv4StrToUint32 (net.ParseIP of a bad text is nil, whose To4 is nil). *)
Definition IPv4StrToUint32 (s : bytes) : res N :=
  match ParseIP s with
  | Some ip => if is_nil (to4 ip) then Ok 0%N else IPv4ToUint32 (to4 ip)
  | None => Ok 0%N
  end.

(** ipnet/range.go:147 Ranges.Len, :148-150 Ranges.Swap, :151-153 Ranges.Less;
    indexing outside the slice panics. *)
Definition RangesLen (r : list Range) : nat := length r.
Definition set_range (r : list Range) (i : nat) (x : Range) : list Range := firstn i r ++ x :: skipn (S i) r.
Definition RangesSwap (r : list Range) (i j : nat) : res (list Range) :=
  match nth_error r i, nth_error r j with
  | Some x, Some y => Ok (set_range (set_range r i y) j x)
  | _, _ => Panic
  end.
Definition RangesLess (r : list Range) (i j : nat) : res bool :=
  match nth_error r i, nth_error r j with
  | Some x, Some y => Ok (IPLess (rStart x) (rStart y))
  | _, _ => Panic
  end.
