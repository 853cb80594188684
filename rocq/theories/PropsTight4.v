(** C04: NewRange; C02: networks are not split.  Statements use Spec.v and the functions of ipnet. *)
From Verif Require Import Base NetIP IpNet Spec IpNetProofs SplitProofs IpNetProofs2 PropsIpNet PropsMerge.
Open Scope N_scope.

(** C04: NewRange of a network is the range from its first to its last address, both in 16 bytes. *)
Theorem C04_new_range : forall n b, net_is n b -> aligned b ->
  exists r, NewRange n = Ok r /\ wf_range r /\ length (rStart r) = 16%nat /\ length (rEnd r) = 16%nat /\
    addr (rStart r) = base b /\ addr (rEnd r) = base b + 2 ^ logsz b - 1 /\
    forall a, in_range r a <-> in_block b a.
Proof.
  intros n b Hn Ha. destruct (NewRange_spec n b Hn Ha) as (r & E & W & L1 & L2 & S). exists r.
  repeat (split; [assumption|]). assert (P : 0 < 2 ^ logsz b) by (apply N.neq_0_lt_0, N.pow_nonzero; lia).
  pose proof (wr_le r W) as Le. unfold in_range, in_block in S.
  pose proof (proj1 (S (addr (rStart r))) ltac:(lia)). pose proof (proj1 (S (addr (rEnd r))) ltac:(lia)).
  pose proof (proj2 (S (base b)) ltac:(lia)). pose proof (proj2 (S (base b + 2 ^ logsz b - 1)) ltac:(lia)).
  split; [lia|]. split; [lia|]. exact S.
Qed.
Print Assumptions C04_new_range.

(** C02: the range of a network is split into that one network. *)
Theorem C02_network_kept : forall n b r nets, net_is n b -> aligned b -> NewRange n = Ok r -> IPNets r = Ok nets ->
  exists n', nets = [n'] /\ net_is n' b.
Proof.
  intros n b r nets Hn Ha E1 E2. destruct (C04_new_range n b Hn Ha) as (r' & E & W & _ & _ & S & T & _).
  assert (r' = r) as -> by congruence. clear E.
  assert (P : 0 < 2 ^ logsz b) by (apply N.neq_0_lt_0, N.pow_nonzero; lia).
  destruct (C01_ipnets_exact r W) as (nets' & bs & E & _ & F & Ti). assert (nets' = nets) as -> by congruence. clear E.
  assert (L : (length nets <= 1)%nat).
  { apply (C02_ipnets_shortest r nets W E2 [b]). apply tiles_covers. rewrite S, T. cbn. repeat split; [exact Ha|lia]. }
  pose proof (Forall2_length F) as FL. rewrite S, T in Ti.
  destruct nets as [|n' [|? ?]]; cbn in L; [|destruct bs as [|b' [|? ?]]; try discriminate FL|lia].
  - destruct bs; [|discriminate FL]. cbn in Ti. lia.
  - cbn in Ti. destruct Ti as (B & _ & Q). exists n'. split; [reflexivity|]. inversion F as [|? ? ? ? N _]; subst.
    assert (b' = b) as <-; [|exact N].
    assert (Hl : 2 ^ logsz b' = 2 ^ logsz b) by lia. apply N.pow_inj_r in Hl; [|lia]. destruct b, b'; cbn in *. congruence.
Qed.
Print Assumptions C02_network_kept.

Example C04_new_range_case : net_is (mkNet [x0a; x01; x00; x00] [xff; xff; x00; x00]) (mkBlock (v4base + 0x0a010000) 16) /\
  aligned (mkBlock (v4base + 0x0a010000) 16) /\
  NewRange (mkNet [x0a; x01; x00; x00] [xff; xff; x00; x00]) = Ok (mkRange (IPv4 x0a x01 x00 x00) (IPv4 x0a x01 xff xff)).
Proof. split; [|split; reflexivity]. constructor; try reflexivity; [left; reflexivity|cbn; lia]. Qed.
