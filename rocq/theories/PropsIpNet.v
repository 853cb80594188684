(** Property theorems C01-C10 (package ipnet).  Vocabulary: Spec.v. *)
From Verif Require Import Base NetIP IpNet Spec IpNetProofs SplitProofs IpNetProofs2.
Open Scope N_scope.

(** C01: IPNets ends (the loop of the code needs at most 256 rounds, any larger
    budget gives the same result) and its networks tile Start..End. *)
Theorem C01_ipnets_exact : forall r, wf_range r ->
  exists nets bs,
    IPNets r = Ok nets /\
    (forall fuel, (257 <= fuel)%nat ->
       ipnets_loop fuel (to16 (rStart r)) (to16 (rEnd r)) = Ok nets) /\
    Forall2 net_is nets bs /\
    tiles (addr (rStart r)) bs (addr (rEnd r) + 1).
Proof.
  intros r [V1 V2 L]. destruct (IPNets_gsplit r V1 V2 L) as [nets [bs [H1 [H2 [H3 H4]]]]].
  exists nets, bs. split; [assumption|]. split; [|split; [assumption|eapply gsplit_tiles; eassumption]].
  intros fuel Hf. exact (ipnets_fuel_mono 257 fuel _ _ _ Hf H1).
Qed.
Print Assumptions C01_ipnets_exact.

(** C01, read as sets: an address is in the range iff it is in one of the
    networks, and the networks are ascending and disjoint. *)
Theorem C01_ipnets_sets : forall r nets, wf_range r -> IPNets r = Ok nets ->
  exists bs, Forall2 net_is nets bs /\ Forall aligned bs /\
    (forall a, in_range r a <-> exists b, In b bs /\ in_block b a) /\
    (forall i j bi bj, (i < j)%nat -> nth_error bs i = Some bi -> nth_error bs j = Some bj ->
       forall a, in_block bi a -> a < base bj).
Proof.
  intros r nets W H. destruct (C01_ipnets_exact r W) as [nets' [bs [H1 [_ [H2 H3]]]]].
  rewrite H in H1. injection H1 as <-. exists bs. split; [assumption|].
  destruct (tiles_covers _ _ _ H3) as [A C]. split; [assumption|]. split.
  - intros a. rewrite C. unfold in_range. lia.
  - intros i j bi bj Hij Hi Hj a [_ Ha]. pose proof (tiles_sorted _ _ _ H3 i j bi bj Hij Hi Hj). lia.
Qed.
Print Assumptions C01_ipnets_sets.

(** C02 *)
Theorem C02_ipnets_shortest : forall r nets, wf_range r -> IPNets r = Ok nets ->
  forall cs, covers cs (addr (rStart r)) (addr (rEnd r) + 1) -> (length nets <= length cs)%nat.
Proof.
  intros r nets [V1 V2 L] H cs C. destruct (IPNets_gsplit r V1 V2 L) as [nets' [bs [H1 [H2 [H3 H4]]]]].
  rewrite H in H1. injection H1 as <-. pose proof (Forall2_length H2) as E. rewrite E.
  refine (gsplit_min 128 _ _ _ H3 _ cs C). pose proof (addr_bound _ V2). alia.
Qed.
Print Assumptions C02_ipnets_shortest.

Example C01_case : wf_range (mkRange (IPv4 x01 x00 x00 x05) [x01; x00; x01; x02]).
Proof. constructor; cbn; [right|left|]; reflexivity || (vm_compute; discriminate). Qed.
Example C01_case_v6 : wf_range (mkRange (repeat x00 15 ++ [x01]) (repeat xff 16)).
Proof. constructor; cbn; [right|right|]; reflexivity || (vm_compute; discriminate). Qed.

(** C03 *)
Theorem C03_nextip : forall ip,
  length (NextIP ip) = length ip /\
  (val ip + 1 < 2 ^ (8 * N.of_nat (length ip)) -> val (NextIP ip) = val ip + 1) /\
  (all_ones ip -> NextIP ip = repeat x00 (length ip)).
Proof.
  intros ip. split; [apply NextIP_length|]. rewrite NextIP_val. split.
  - intros H. apply N.mod_small. assumption.
  - intros H. apply val_inj; [rewrite NextIP_length, repeat_length; reflexivity|].
    rewrite NextIP_val. unfold all_ones in H. rewrite H.
    rewrite N.mod_same by (apply N.pow_nonzero; discriminate).
    clear. induction (length ip) as [|n IH]; [reflexivity|]. cbn [repeat val]. rewrite <- IH. reflexivity.
Qed.
Print Assumptions C03_nextip.
Example C03_case : all_ones [xff; xff; xff; xff] /\ NextIP [x01; xff; xff; xff] = [x02; x00; x00; x00].
Proof. split; reflexivity. Qed.

(** C04 *)
Theorem C04_lastip_nextstart : forall n b, net_is n b ->
  exists l, LastIP n = Ok l /\ length l = length (nIP n) /\
    addr l / 2 ^ logsz b = addr (nIP n) / 2 ^ logsz b /\
    (forall a, a / 2 ^ logsz b = addr (nIP n) / 2 ^ logsz b -> a <= addr l) /\
    exists s, NextStart n = Ok s /\ length s = length l /\
      (~ all_ones l -> addr s = addr l + 1) /\ (all_ones l -> s = repeat x00 (length l)).
Proof.
  intros n b H. destruct (LastIP_addr n b H) as [l [E1 [E2 E3]]].
  pose proof (ni_len _ _ H) as V.
  assert (valid_ip l) as Vl by (unfold valid_ip in *; rewrite E2; assumption).
  exists l. split; [assumption|]. split; [assumption|].
  pose proof (pow_pos (logsz b)) as P.
  assert (forall a, a / 2 ^ logsz b = addr (nIP n) / 2 ^ logsz b <->
            in_block (mkBlock (addr (nIP n) / 2 ^ logsz b * 2 ^ logsz b) (logsz b)) a) as K
    by (intros a; rewrite in_block_floor; tauto).
  split; [|split].
  - apply K. unfold in_block. cbn [base logsz]. rewrite E3.
    set (q := addr (nIP n) / 2 ^ logsz b). rewrite N.mul_add_distr_r. lia.
  - intros a Ha. apply K in Ha. unfold in_block in Ha. cbn [base logsz] in Ha. rewrite E3.
    set (q := addr (nIP n) / 2 ^ logsz b) in *. rewrite N.mul_add_distr_r. lia.
  - unfold NextStart. rewrite E1. cbn [bind]. exists (NextIP l). split; [reflexivity|].
    split; [apply NextIP_length|]. split; [apply NextIP_addr; assumption|apply C03_nextip].
Qed.
Print Assumptions C04_lastip_nextstart.
Example C04_case : net_is (mkNet [x0a; x01; x02; x03] [xff; xff; x00; x00]) (mkBlock (addr [x0a; x01; x02; x03]) 16).
Proof. constructor; cbn; try (left; reflexivity); reflexivity || (vm_compute; discriminate). Qed.

(** C05 *)
Theorem C05_ipless : forall a b, valid_ip a -> valid_ip b ->
  (IPLess a b = true <-> addr a < addr b).
Proof. intros a b Ha Hb. rewrite IPLess_addr by assumption. apply N.ltb_lt. Qed.
Print Assumptions C05_ipless.
(** C05, consequence: trichotomy; equality is equality of 16-byte spellings. *)
Theorem C05_ipless_total : forall a b, valid_ip a -> valid_ip b ->
  (IPLess a b = true \/ IPLess b a = true \/ to16 a = to16 b) /\
  (IPLess a b = true -> IPLess b a = false) /\
  (to16 a = to16 b -> IPLess a b = false).
Proof.
  intros a b Ha Hb. rewrite !IPLess_addr by assumption. split; [|split].
  - destruct (N.lt_total (addr a) (addr b)) as [L|[L|L]]; [left; lia|right; right|right; left; lia].
    apply to16_eq; assumption.
  - lia.
  - intros E. rewrite <- (to16_val a), <- (to16_val b), E by assumption. lia.
Qed.
Print Assumptions C05_ipless_total.
Example C05_case : valid_ip [x01; x02; x03; x04] /\ valid_ip (IPv4 x01 x02 x03 x05) /\
  IPLess [x01; x02; x03; x04] (IPv4 x01 x02 x03 x05) = true.
Proof. split; [left|split; [right|]]; reflexivity. Qed.

(** C06 *)
Theorem C06_contains : forall s e ip, valid_ip s -> valid_ip e -> valid_ip ip -> ~ all_ones e ->
  (Contains s e ip = true <-> addr s <= addr ip <= addr e).
Proof. exact Contains_spec. Qed.
Print Assumptions C06_contains.
(** C06, finding: an interval ending at the all-ones address has no members. *)
Theorem C06_contains_allones : forall s e ip, valid_ip s -> valid_ip e -> valid_ip ip -> all_ones e ->
  (length e = 4%nat -> v4base <= addr s) -> Contains s e ip = false.
Proof. exact Contains_ones. Qed.
Print Assumptions C06_contains_allones.
Theorem C06_refuted : exists s e ip, valid_ip s /\ valid_ip e /\ valid_ip ip /\
  addr s <= addr ip <= addr e /\ Contains s e ip = false.
Proof.
  exists [xff; xff; xff; x00], [xff; xff; xff; xff], [xff; xff; xff; x05].
  repeat split; try (left; reflexivity); vm_compute; discriminate.
Qed.
Print Assumptions C06_refuted.

(** C07 *)
Theorem C07_join : forall r r2 ok r', wf_range r -> wf_range r2 -> Join r r2 = (ok, r') ->
  (ok = true ->
     addr (rStart r) <= addr (rStart r2) <= addr (rEnd r) + 1 /\
     forall a, in_range r' a <-> in_range r a \/ in_range r2 a) /\
  (ok = false -> r' = r) /\
  (~ all_ones (rEnd r) -> (ok = true <-> addr (rStart r) <= addr (rStart r2) <= addr (rEnd r) + 1)).
Proof.
  intros r r2 ok r' W1 W2 H. split; [|split].
  - intros ->. destruct (Join_true r r2 r' W1 W2 H) as [A [_ B]]. auto.
  - intros ->. exact (Join_false _ _ _ H).
  - intros Ho. split.
    + intros ->. exact (proj1 (Join_true r r2 r' W1 W2 H)).
    + intros L. pose proof (Join_complete r r2 W1 W2 Ho L) as C. rewrite H in C. exact C.
Qed.
Print Assumptions C07_join.
Theorem C07_join_ipnet : forall r n b, wf_range r -> net_is n b -> aligned b ->
  exists ok r', JoinIPNet r n = Ok (ok, r') /\
  (ok = true ->
     addr (rStart r) <= base b <= addr (rEnd r) + 1 /\
     forall a, in_range r' a <-> in_range r a \/ in_block b a) /\
  (ok = false -> r' = r) /\
  (~ all_ones (rEnd r) -> (ok = true <-> addr (rStart r) <= base b <= addr (rEnd r) + 1)).
Proof.
  intros r n b W Hn Ha. destruct (JoinIPNet_total r n b W Hn) as [ok [r' H]].
  exists ok, r'. split; [assumption|]. split; [|split].
  - intros ->. destruct (JoinIPNet_true r n b r' W Hn Ha H) as [A [_ B]]. auto.
  - intros ->. exact (JoinIPNet_false _ _ _ H).
  - intros Ho. split.
    + intros ->. exact (proj1 (JoinIPNet_true r n b r' W Hn Ha H)).
    + intros L. destruct (JoinIPNet_complete r n b W Hn Ho L) as [r'' E]. congruence.
Qed.
Print Assumptions C07_join_ipnet.
(** C07, finding: next to a receiver that ends at the all-ones address the
    containment of the second range is not noticed. *)
Theorem C07_join_allones_refuted : exists r r2, wf_range r /\ wf_range r2 /\
  addr (rStart r) <= addr (rStart r2) <= addr (rEnd r) /\ fst (Join r r2) = false.
Proof.
  exists (mkRange (repeat x00 16) (repeat xff 16)), (mkRange (repeat x00 15 ++ [x01]) (repeat x00 15 ++ [x02])).
  split; [constructor; cbn; try (right; reflexivity); vm_compute; discriminate|].
  split; [constructor; cbn; try (right; reflexivity); vm_compute; discriminate|].
  split; [split; vm_compute; discriminate|reflexivity].
Qed.
Print Assumptions C07_join_allones_refuted.
Example C07_case : fst (Join (mkRange (IPv4 x01 x00 x00 x00) (IPv4 x01 x00 x00 xff))
                             (mkRange (IPv4 x01 x00 x01 x00) (IPv4 x01 x00 x01 x0f))) = true.
Proof. reflexivity. Qed.

(** C08 *)
Theorem C08_common_range : forall r ip r2 ok r', wf_range r -> wf_range r2 -> valid_ip ip ->
  ~ all_ones (rEnd r) -> ~ all_ones (rEnd r2) -> CommonRange r ip r2 = (ok, r') ->
  (ok = true <-> in_range r (addr ip) /\ in_range r2 (addr ip)) /\
  (ok = true -> forall a, in_range r' a <-> in_range r a /\ in_range r2 a) /\
  (ok = false -> r' = r).
Proof.
  intros r ip r2 ok r' W1 W2 V O1 O2 H. split; [split|split].
  - intros ->. destruct (CommonRange_true r ip r2 r' W1 W2 V O1 O2 H) as [A [B _]]. auto.
  - intros [A B]. pose proof (CommonRange_complete r ip r2 W1 W2 V O1 O2 A B) as C. rewrite H in C. exact C.
  - intros ->. destruct (CommonRange_true r ip r2 r' W1 W2 V O1 O2 H) as [_ [_ [_ B]]]. exact B.
  - intros ->. exact (CommonRange_false _ _ _ _ H).
Qed.
Print Assumptions C08_common_range.
Example C08_case : fst (CommonRange (mkRange (IPv4 x01 x00 x00 x00) (IPv4 x01 x00 x02 xff)) [x01; x00; x01; x05]
                             (mkRange (IPv4 x01 x00 x01 x00) (IPv4 x01 x00 x04 x0f))) = true.
Proof. reflexivity. Qed.

(** C09 *)
Theorem C09_u32_roundtrip : forall u, u < 2 ^ 32 ->
  addr (Uint32ToIPv4 u) = v4base + u /\ IPv4ToUint32 (Uint32ToIPv4 u) = Ok u.
Proof.
  intros u H. destruct (Uint32ToIPv4_spec u H) as [L A]. split; [assumption|].
  rewrite IPv4ToUint32_v4; rewrite ?A; [f_equal; lia|right; assumption|].
  unfold is_v4. lia.
Qed.
Print Assumptions C09_u32_roundtrip.
Theorem C09_ip_roundtrip : forall ip, valid_ip ip -> is_v4 (addr ip) ->
  exists u, u < 2 ^ 32 /\ IPv4ToUint32 ip = Ok u /\ Uint32ToIPv4 u = to16 ip.
Proof.
  intros ip V H. exists (addr ip - v4base). unfold is_v4 in H.
  assert (addr ip - v4base < 2 ^ 32) as B by (unfold v4base in *; lia).
  split; [assumption|]. split; [apply IPv4ToUint32_v4; assumption|].
  destruct (Uint32ToIPv4_spec _ B) as [L A]. apply addr_inj.
  - rewrite L, to16_length by assumption. reflexivity.
  - right. assumption.
  - rewrite A, to16_addr by assumption. lia.
Qed.
Print Assumptions C09_ip_roundtrip.
Theorem C09_not_v4_panics : forall ip, ~ (valid_ip ip /\ is_v4 (addr ip)) -> IPv4ToUint32 ip = Panic.
Proof.
  intros ip H. destruct (Nat.eq_dec (length ip) 4) as [E|E]; [|destruct (Nat.eq_dec (length ip) 16) as [E'|E']].
  - apply IPv4ToUint32_panic; [left; assumption|]. intros I. apply H. split; [left; assumption|assumption].
  - apply IPv4ToUint32_panic; [right; assumption|]. intros I. apply H. split; [right; assumption|assumption].
  - apply IPv4ToUint32_panic_len. intros [V|V]; contradiction.
Qed.
Print Assumptions C09_not_v4_panics.
Theorem C09_u64 : forall h l, h < 2 ^ 64 -> l < 2 ^ 64 ->
  length (Uint64ToIP2 h l) = 16%nat /\ addr (Uint64ToIP2 h l) = h * 2 ^ 64 + l /\
  length (Uint64ToIP h) = 16%nat /\ addr (Uint64ToIP h) = h * 2 ^ 64.
Proof.
  intros h l Hh Hl. destruct (Uint64ToIP2_spec h l Hh Hl), (Uint64ToIP_spec h Hh). auto.
Qed.
Print Assumptions C09_u64.
Example C09_case : is_v4 (addr [x7f; x00; x00; x01]) /\ ~ is_v4 (addr (repeat x00 15 ++ [x01])).
Proof. unfold is_v4; split; vm_compute; [split; [discriminate|reflexivity]|]. intros [H _]. apply H. reflexivity. Qed.

(** C10 *)
Theorem C10_prefix_same_length : forall a b, length a = length b ->
  let w := 8 * N.of_nat (length a) in
  let p := N.of_nat (PrefixSameLength a b) in
  p <= w /\ val a / 2 ^ (w - p) = val b / 2 ^ (w - p) /\
  (p < w -> val a / 2 ^ (w - p - 1) <> val b / 2 ^ (w - p - 1)).
Proof.
  intros a b H. unfold PrefixSameLength. rewrite H, Nat.eqb_refl, <- H. exact (prefix_same_aux_spec a b H).
Qed.
Print Assumptions C10_prefix_same_length.
Theorem C10_suffix_zero_length : forall ip,
  let w := 8 * N.of_nat (length ip) in
  let s := N.of_nat (SuffixZeroLength ip) in
  s <= w /\ val ip mod 2 ^ s = 0 /\ (s < w -> val ip mod 2 ^ (s + 1) <> 0).
Proof. exact SuffixZeroLength_spec. Qed.
Print Assumptions C10_suffix_zero_length.
Example C10_case : PrefixSameLength [x0a; x10] [x0a; x18] = 12%nat /\ SuffixZeroLength [x0a; x10; x00] = 12%nat.
Proof. split; reflexivity. Qed.

(** Auxiliary, used by C16: IpNet(ip, m) is the network of m leading bits around ip. *)
Theorem C16_ipnet_contains : forall ip m, valid_ip ip ->
  (m <= if is_nil (to4 ip) then 128 else 32)%nat ->
  exists k, N.of_nat m + k = (if is_nil (to4 ip) then 128 else 32) /\
    exists b, net_is (IpNet ip (Z.of_nat m)) b /\ logsz b = k /\ aligned b /\
      forall a, in_block b a <-> a / 2 ^ k = addr ip / 2 ^ k.
Proof.
  intros ip m V H. destruct (IpNet_spec ip m V H) as [k [E Hn]]. exists k. split; [assumption|].
  eexists. split; [exact Hn|]. split; [reflexivity|]. split; [apply floor_aligned|].
  intros a. apply in_block_floor.
Qed.
Print Assumptions C16_ipnet_contains.
