(** Specification vocabulary, written without reference to the modelled
    functions: addresses are numbers below 2^128, CIDR blocks are aligned
    intervals whose size is a power of two. *)
From Verif Require Export NetIP.
From Verif Require Import IpNet.   (* only for the record Range *)
Open Scope N_scope.

(** An address is given in 4 or in 16 bytes. *)
Definition valid_ip (ip : bytes) : Prop := length ip = 4%nat \/ length ip = 16%nat.

(** The number of an address; a.b.c.d is ::ffff:a.b.c.d. *)
Definition addr (ip : bytes) : N :=
  if (length ip =? 4)%nat then 0xffff * 2 ^ 32 + val ip else val ip.

(** A CIDR block: 2^logsz addresses from base on. *)
Record block := mkBlock { base : N; logsz : N }.
Definition in_block (b : block) (a : N) : Prop := base b <= a < base b + 2 ^ logsz b.
Definition aligned (b : block) : Prop := base b mod 2 ^ logsz b = 0.

(** [net_is n b]: the Go network n denotes block b: address and mask have the
    same (legal) length and the mask is ones followed by [logsz b] zeros. *)
Record net_is (n : IPNet) (b : block) : Prop := {
  ni_len : valid_ip (nIP n);
  ni_mask_len : length (nMask n) = length (nIP n);
  ni_logsz : logsz b <= 8 * N.of_nat (length (nIP n));
  ni_mask : val (nMask n) = 2 ^ (8 * N.of_nat (length (nIP n))) - 2 ^ logsz b;
  ni_base : base b = addr (nIP n)
}.

(** Consecutive blocks fill exactly the addresses s .. e-1. *)
Fixpoint tiles (s : N) (bs : list block) (e : N) : Prop :=
  match bs with
  | [] => s = e
  | b :: r => base b = s /\ aligned b /\ tiles (s + 2 ^ logsz b) r e
  end.

(** A list of CIDR blocks covers exactly the addresses s .. e-1 (any order,
    overlaps allowed). *)
Definition covers (bs : list block) (s e : N) : Prop :=
  Forall aligned bs /\
  forall a, (exists b, In b bs /\ in_block b a) <-> s <= a < e.

(** The address is written with ones only (255.255.255.255 in 4 bytes,
    ff..ff in 16 bytes). *)
Definition all_ones (ip : bytes) : Prop := val ip + 1 = 2 ^ (8 * N.of_nat (length ip)).

(** IPv4 addresses have the numbers ::ffff:0:0 .. ::ffff:ffff:ffff. *)
Definition v4base : N := 0xffff * 2 ^ 32.
Definition is_v4 (a : N) : Prop := v4base <= a < v4base + 2 ^ 32.

(** A range of addresses, in any spelling, with Start <= End; its addresses. *)
Record wf_range (r : Range) : Prop := {
  wr_s : valid_ip (rStart r); wr_e : valid_ip (rEnd r); wr_le : addr (rStart r) <= addr (rEnd r) }.
Definition in_range (r : Range) (a : N) : Prop := addr (rStart r) <= a <= addr (rEnd r).

