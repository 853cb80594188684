(** Specification vocabulary for the awdb search tree (C34-C36): the table of node
    records as pairs of numbers, without reference to the code's functions. *)
From Verif Require Export Base Spec Bits.
From Verif Require Import AwTree.   (* only for the records awReader, netNode and the type value *)
Open Scope N_scope.

(** A node of two records of 24, 28 or 32 bits as the format lays it out.  With 28 bits
    the fourth byte has the upper four bits of both. *)
Definition node_bytes (rs : N) (lr : N * N) : bytes :=
  let '(l, r) := lr in
  if rs =? 24 then be_enc 3 l ++ be_enc 3 r
  else if rs =? 28 then be_enc 3 l ++ [n2b (l / 2 ^ 24 * 16 + r / 2 ^ 24)] ++ be_enc 3 r
  else be_enc 4 l ++ be_enc 4 r.
Definition record_size (rs : N) : Prop := rs = 24 \/ rs = 28 \/ rs = 32.
Definition fits (rs : N) (lr : N * N) : Prop := fst lr < 2 ^ rs /\ snd lr < 2 ^ rs.

(** [reach tbl s p n]: from s, taking the left record for false and the right one for
    true, the bits p lead to the number n. *)
Inductive reach (tbl : list (N * N)) (s : N) : list bool -> N -> Prop :=
| reach_root : reach tbl s [] s
| reach_step p n lr b : reach tbl s p n -> nth_error tbl (N.to_nat n) = Some lr ->
    reach tbl s (p ++ [b]) (if b then snd lr else fst lr).

(** Node numbers are below the number of nodes, that number itself says no data, and
    greater ones point to data. *)
Definition inner (tbl : list (N * N)) (n : N) : Prop := n < N.of_nat (length tbl).
Definition no_data (tbl : list (N * N)) (n : N) : Prop := n = N.of_nat (length tbl).
Definition data_at (tbl : list (N * N)) (n : N) : Prop := N.of_nat (length tbl) < n.

(** The bits of a network: the leading ones of its address. *)
Definition net_bits (n : netNode) : list bool := firstn (nnBit n) (bits (nnIp n)).
Definition nn_first (n : netNode) : N := val (nnIp n).
Definition nn_after (n : netNode) : N := val (nnIp n) + 2 ^ N.of_nat (8 * length (nnIp n) - nnBit n).

(** The open database has this table; in an IPv6 database IPv4 addresses start where 96
    zero bits lead (or earlier, if data or the empty record is met before). *)
Record reads (r : awReader) (tbl : list (N * N)) : Prop := {
  rd_rs : record_size (aRecordSize (wMeta r));
  rd_fits : Forall (fits (aRecordSize (wMeta r))) tbl;
  rd_nodes : wNodes r = flat_map (node_bytes (aRecordSize (wMeta r))) tbl;
  rd_count : aNodeCount (wMeta r) = N.of_nat (length tbl);
  rd_v4 : aIPVersion (wMeta r) <> 6 -> wV4Start r = 0;
  rd_v6 : aIPVersion (wMeta r) = 6 -> reach tbl 0 (repeat false (wV4Depth r)) (wV4Start r) /\
          ((wV4Depth r = 96)%nat \/ (wV4Depth r < 96)%nat /\ ~ inner tbl (wV4Start r)) }.

(** The bits by which a database of the given IP version finds the first j bits of the
    address c: IPv4 addresses of an IPv6 database are below 96 zero bits. *)
Definition tree_bits (version : N) (c : bytes) (j : nat) : list bool :=
  (if (version =? 6) && (length c =? 4)%nat then repeat false 96 else []) ++ firstn j (bits c).
(** c is the address ip in its own family's spelling: four bytes for IPv4. *)
Definition own_spelling (ip c : bytes) : Prop :=
  valid_ip c /\ addr c = addr ip /\ (length c = 4%nat <-> is_v4 (addr ip)).
(** IPv4 addresses of an IPv6 database have nodes of their own. *)
Definition has_v4_nodes (r : awReader) : Prop := aIPVersion (wMeta r) = 6 -> wV4Depth r = 96%nat.

(** A map of the data section is a sequence of assignments: the last one to a key counts.
    Strings and byte strings are the values with a text. *)
Definition last_assigned (m : list (bytes * value)) (k : bytes) (v : value) : Prop :=
  exists m1 m2, m = m1 ++ (k, v) :: m2 /\ ~ In k (map fst m2).
Definition text_of (v : value) (s : bytes) : Prop := v = VStr s \/ v = VBytes s.
Definition text_record (m : list (bytes * value)) : Prop := forall k v, last_assigned m k v -> exists s, text_of v s.
(** The text of key k, empty if there is none. *)
Definition text_at (m : list (bytes * value)) (k : bytes) (s : bytes) : Prop :=
  (exists v, last_assigned m k v /\ text_of v s) \/ (~ In k (map fst m) /\ s = []).
