(** C02, C24, C25: splitting and merging give the coarsest networks; a partition stays one. *)
From Verif Require Import Base NetIP IpNet Inf Spec SpecIpdb IpNetProofs SplitProofs IpNetProofs2 BuildProofs PropsIpNet Operate SpecOperate MergeProofs MergeProofs2.
Open Scope nat_scope.

(** C02: a CIDR block that lies in the range lies in one of the networks. *)
Theorem C02_ipnets_coarsest : forall r nets c, wf_range r -> IPNets r = Ok nets -> aligned c ->
  (forall a, in_block c a -> in_range r a) ->
  exists n b, In n nets /\ net_is n b /\ forall a, in_block c a -> in_block b a.
Proof.
  intros r nets c W E Ac Hc.
  destruct (merge_split_in [(r, mkSlc 0 0)] (map (fun n => (n, mkSlc 0 0)) nets ++ []) r (mkSlc 0 0) c) as (n & b & I & H1 & _ & H2); try assumption.
  { cbn [merge_split]. rewrite E. reflexivity. } { now left. }
  rewrite app_nil_r in I. apply in_map_iff in I as (n' & Q & I). exists n, b. assert (n' = n) as -> by congruence. auto.
Qed.
Print Assumptions C02_ipnets_coarsest.

(** C24: rows whose networks follow each other without gap or overlap stay so. *)
Theorem C24_merge_partition : forall d bs s e, Forall2 (fun r b => net_is (cidr r) b) (dIps (contents d)) bs -> tiles s bs e ->
  dIps (contents d) <> [] ->
  exists d' bs', MergeNearNetwork d = Ok d' /\ Forall2 (fun r b => net_is (cidr r) b) (dIps (contents d')) bs' /\ tiles s bs' e.
Proof.
  intros d bs s e HF T NE.
  assert (Forall2 net_block (hRows d) bs) as HB.
  { destruct (tiles_covers _ _ _ T) as [Al _]. clear T NE. unfold contents in HF. cbn [dIps] in HF. revert bs HF Al.
    induction (hRows d) as [|r rows IH]; intros bs HF Al; cbn [map] in HF; inversion HF; subst; [constructor|].
    inversion Al; subst. constructor; [split; assumption|auto]. }
  assert (blocks (contents d)) as B.
  { unfold blocks. destruct (tiles_covers _ _ _ T) as [Al _]. clear - HF Al. induction HF; [constructor|]. inversion Al; subst. constructor; eauto. }
  assert (hRows d <> []) as NR by (intros Q; apply NE; unfold contents; rewrite Q; reflexivity).
  destruct (merge_main d NR B) as (d' & E & _). exists d'.
  destruct (merge_tiles d bs s e HB T NR d' E) as (bs' & H1 & H2). exists bs'. split; [assumption|]. split; [|assumption].
  unfold contents. cbn [dIps]. clear - H1. induction H1 as [|r b rows bs [H _] F IH]; cbn [map]; constructor; auto.
Qed.
Print Assumptions C24_merge_partition.

(** C25: no network is split: each lies in one network of the result, with the same values. *)
Theorem C25_merge_only_grows : forall d d', blocks (contents d) -> MergeNearNetwork d = Ok d' ->
  forall r c, In r (dIps (contents d)) -> net_is (cidr r) c -> aligned c ->
  exists r' b, In r' (dIps (contents d')) /\ fvals r' = fvals r /\ net_is (cidr r') b /\ aligned b /\
    forall a, in_block c a -> in_block b a.
Proof. exact merge_coarser. Qed.
Print Assumptions C25_merge_only_grows.

(** A case: three consecutive networks, the first two equal in value. *)
Definition merge_case : HData :=
  mkH [str "country"] (mkVersion 1 0 0 [] [] [])
    [ (mkNet [x01; x00; x00; x00] [xff; xff; xff; x80], mkSlc 0 1); (mkNet [x01; x00; x00; x80] [xff; xff; xff; x80], mkSlc 1 1);
      (mkNet [x01; x00; x01; x00] [xff; xff; xff; x00], mkSlc 2 1) ] [[str "AU"]; [str "AU"]; [str "CN"]].
Example C24_partition_case :
  let bs := [mkBlock (v4base + 0x01000000) 7; mkBlock (v4base + 0x01000080) 7; mkBlock (v4base + 0x01000100) 8] in
  Forall2 (fun r b => net_is (cidr r) b) (dIps (contents merge_case)) bs /\ tiles (v4base + 0x01000000) bs (v4base + 0x01000200) /\
  blocks (contents merge_case) /\
  exists d', MergeNearNetwork merge_case = Ok d' /\
    map (fun r => (nMask (cidr r), fvals r)) (dIps (contents d')) = [(repeat xff 15 ++ [x00], [str "AU"]); (repeat xff 15 ++ [x00], [str "CN"])].
Proof.
  assert (forall n b, valid_ip (nIP n) -> length (nMask n) = length (nIP n) -> (logsz b <=? 8 * N.of_nat (length (nIP n)))%N = true ->
    val (nMask n) = (2 ^ (8 * N.of_nat (length (nIP n))) - 2 ^ logsz b)%N -> base b = addr (nIP n) -> net_is n b) as K.
  { intros n b H1 H2 H3 H4 H5. constructor; try assumption. apply N.leb_le. assumption. }
  cbv zeta. split.
  { constructor; [|constructor; [|constructor; [|constructor]]]; apply K; solve [left; reflexivity|vm_compute; reflexivity]. }
  split.
  { cbn [tiles]. unfold aligned. repeat match goal with |- _ /\ _ => split end; vm_compute; reflexivity. }
  split.
  { constructor; [exists (mkBlock (v4base + 0x01000000) 7)|constructor; [exists (mkBlock (v4base + 0x01000080) 7)|constructor; [exists (mkBlock (v4base + 0x01000100) 8)|constructor]]];
    (split; [apply K; solve [left; reflexivity|vm_compute; reflexivity]|vm_compute; reflexivity]). }
  eexists. split; vm_compute; reflexivity.
Qed.
