(** How many networks a range needs at most (C02).  Vocabulary: Spec.v. *)
From Verif Require Import Base NetIP IpNet Spec IpNetProofs IpNetProofs2 SplitProofs PropsIpNet.
Open Scope N_scope.

Lemma tiles_app2 s bs m cs e : tiles s bs m -> tiles m cs e -> tiles s (bs ++ cs) e.
Proof.
  revert s. induction bs as [|b bs IH]; cbn; intros s.
  - intros ->. auto.
  - intros [A [B C]] D. auto.
Qed.
Lemma pow_S n : 2 ^ N.of_nat (S n) = 2 * 2 ^ N.of_nat n.
Proof. rewrite Nat2N.inj_succ, N.pow_succ_r'. reflexivity. Qed.
Lemma half c k : k <> 0 -> c mod (2 * k) = 0 -> c mod k = 0 /\ (c + k) mod k = 0.
Proof.
  intros K H. apply N.mod_divide in H; [|lia]. destruct H as [q ->]. split.
  - replace (q * (2 * k)) with ((q * 2) * k) by lia. apply N.mod_mul. assumption.
  - replace (q * (2 * k) + k) with ((q * 2 + 1) * k) by lia. apply N.mod_mul. assumption.
Qed.
Lemma one_block c n : c mod 2 ^ n = 0 -> tiles c [mkBlock c n] (c + 2 ^ n).
Proof. intros H. cbn. unfold aligned. cbn. auto. Qed.

(** From s to the end of a block of 2^n addresses. *)
Lemma suffix_tiles n : forall c s, c mod 2 ^ N.of_nat n = 0 -> c <= s < c + 2 ^ N.of_nat n ->
  exists bs, tiles s bs (c + 2 ^ N.of_nat n) /\ (length bs <= Nat.max 1 n)%nat.
Proof.
  induction n as [|n IH]; intros c s A H.
  - change (2 ^ N.of_nat 0) with 1 in *. assert (s = c) as -> by lia.
    exists [mkBlock c 0]. split; [apply one_block; assumption|cbn; lia].
  - destruct (N.eq_dec s c) as [->|Ne].
    { exists [mkBlock c (N.of_nat (S n))]. split; [apply one_block; assumption|cbn; lia]. }
    rewrite pow_S in *. assert (2 ^ N.of_nat n <> 0) as K by (apply N.pow_nonzero; discriminate).
    destruct (half _ _ K A) as [A1 A2]. destruct (N.lt_ge_cases s (c + 2 ^ N.of_nat n)) as [L|L].
    + destruct (IH c s A1) as [bs [T Le]]; [lia|]. destruct n as [|n].
      { change (2 ^ N.of_nat 0) with 1 in *. lia. }
      exists (bs ++ [mkBlock (c + 2 ^ N.of_nat (S n)) (N.of_nat (S n))]). split.
      * eapply tiles_app2; [exact T|]. replace (c + 2 * _) with (c + 2 ^ N.of_nat (S n) + 2 ^ N.of_nat (S n)) by lia.
        apply one_block. assumption.
      * rewrite app_length. cbn [length]. clear - Le. lia.
    + destruct (IH (c + 2 ^ N.of_nat n) s A2) as [bs [T Le]]; [lia|].
      exists bs. split; [replace (c + 2 * _) with (c + 2 ^ N.of_nat n + 2 ^ N.of_nat n) by lia; exact T|clear - Le; lia].
Qed.
(** From the start of a block of 2^n addresses to e. *)
Lemma prefix_tiles n : forall c e, c mod 2 ^ N.of_nat n = 0 -> c < e <= c + 2 ^ N.of_nat n ->
  exists bs, tiles c bs e /\ (length bs <= Nat.max 1 n)%nat.
Proof.
  induction n as [|n IH]; intros c e A H.
  - change (2 ^ N.of_nat 0) with 1 in *. assert (e = c + 2 ^ 0) as -> by (cbn; lia).
    exists [mkBlock c 0]. split; [apply one_block; assumption|cbn; lia].
  - rewrite pow_S in *. destruct (N.eq_dec e (c + 2 * 2 ^ N.of_nat n)) as [->|Ne].
    { exists [mkBlock c (N.of_nat (S n))]. rewrite <- pow_S in *. split; [apply one_block; assumption|cbn; lia]. }
    assert (2 ^ N.of_nat n <> 0) as K by (apply N.pow_nonzero; discriminate).
    destruct (half _ _ K A) as [A1 A2]. destruct (N.le_gt_cases e (c + 2 ^ N.of_nat n)) as [L|L].
    + destruct (IH c e A1) as [bs [T Le]]; [lia|]. exists bs. split; [assumption|clear - Le; lia].
    + destruct (IH (c + 2 ^ N.of_nat n) e A2) as [bs [T Le]]; [lia|]. destruct n as [|n].
      { change (2 ^ N.of_nat 0) with 1 in *. lia. }
      exists (mkBlock c (N.of_nat (S n)) :: bs). split; [cbn; unfold aligned; cbn; auto|cbn [length]; clear - Le; lia].
Qed.
(** Any interval inside a block of 2^n addresses. *)
Lemma mid_tiles n : forall c s e, c mod 2 ^ N.of_nat n = 0 -> c <= s -> s < e -> e <= c + 2 ^ N.of_nat n ->
  exists bs, tiles s bs e /\ (length bs <= Nat.max 1 (2 * n - 2))%nat.
Proof.
  induction n as [|n IH]; intros c s e A H1 H2 H3.
  - change (2 ^ N.of_nat 0) with 1 in *. assert (s = c) as -> by lia. assert (e = c + 2 ^ 0) as -> by (cbn; lia).
    exists [mkBlock c 0]. split; [apply one_block; assumption|cbn; lia].
  - rewrite pow_S in *. assert (2 ^ N.of_nat n <> 0) as K by (apply N.pow_nonzero; discriminate).
    destruct (half _ _ K A) as [A1 A2].
    destruct (N.le_gt_cases e (c + 2 ^ N.of_nat n)) as [L|L].
    { destruct (IH c s e A1) as [bs [T Le]]; [lia..|]. exists bs. split; [assumption|clear - Le; lia]. }
    destruct (N.le_gt_cases (c + 2 ^ N.of_nat n) s) as [L'|L'].
    { destruct (IH (c + 2 ^ N.of_nat n) s e A2) as [bs [T Le]]; [lia..|]. exists bs. split; [assumption|clear - Le; lia]. }
    destruct n as [|n].
    { change (2 ^ N.of_nat 0) with 1 in *. assert (s = c) as -> by lia. assert (e = c + 2 ^ N.of_nat 1) as -> by (cbn; lia).
      exists [mkBlock c (N.of_nat 1)]. split; [apply one_block; cbn; assumption|cbn; lia]. }
    destruct (suffix_tiles (S n) c s A1) as [bs [T Le]]; [lia|].
    destruct (prefix_tiles (S n) (c + 2 ^ N.of_nat (S n)) e A2) as [cs [T2 Le2]]; [lia|].
    exists (bs ++ cs). split; [eapply tiles_app2; eassumption|rewrite app_length; clear - Le Le2; lia].
Qed.

Lemma ipnets_at_most r nets c n : wf_range r -> IPNets r = Ok nets ->
  c mod 2 ^ N.of_nat n = 0 -> c <= addr (rStart r) -> addr (rEnd r) < c + 2 ^ N.of_nat n ->
  (length nets <= Nat.max 1 (2 * n - 2))%nat.
Proof.
  intros W E A H1 H2. pose proof (wr_le r W) as Le.
  destruct (mid_tiles n c (addr (rStart r)) (addr (rEnd r) + 1) A) as [bs [T L]]; [assumption|lia|lia|].
  pose proof (C02_ipnets_shortest r nets W E bs (tiles_covers _ _ _ T)). eapply Nat.le_trans; eassumption.
Qed.

(** C02: a range is split into at most 254 networks, a range of IPv4 addresses into at most
    62, and a range inside a CIDR block of 2^n addresses into at most 2n-2 (or one). *)
Theorem C02_at_most : forall r nets, wf_range r -> IPNets r = Ok nets ->
  (length nets <= 254)%nat /\
  (is_v4 (addr (rStart r)) -> is_v4 (addr (rEnd r)) -> (length nets <= 62)%nat) /\
  forall b n, aligned b -> logsz b = N.of_nat n -> (forall a, in_range r a -> in_block b a) ->
    (length nets <= Nat.max 1 (2 * n - 2))%nat.
Proof.
  intros r nets W E. pose proof (wr_le r W) as Le. split; [|split].
  - apply (ipnets_at_most r nets 0 128 W E); [reflexivity|lia|]. change (0 + 2 ^ N.of_nat 128) with (2 ^ 128).
    apply addr_bound. apply (wr_e r W).
  - intros A B. apply (ipnets_at_most r nets v4base 32 W E); [reflexivity|unfold is_v4 in *; lia|].
    change (2 ^ N.of_nat 32) with (2 ^ 32). unfold is_v4 in *. lia.
  - intros b n A L H. unfold in_range, in_block, aligned in *. rewrite L in *.
    apply (ipnets_at_most r nets (base b) n W E A); [apply (H (addr (rStart r))); lia|apply (H (addr (rEnd r))); lia].
Qed.
Print Assumptions C02_at_most.

(** Both bounds are reached. *)
Example C02_at_most_case :
  (match IPNets (mkRange (be_enc 16 1) (be_enc 16 (2 ^ 128 - 2))) with Ok l => length l | _ => O end) = 254%nat /\
  (match IPNets (mkRange (IPv4 x00 x00 x00 x01) (IPv4 xff xff xff xfe)) with Ok l => length l | _ => O end) = 62%nat.
Proof. split; vm_compute; reflexivity. Qed.
