(** Joining and intersecting ranges, membership, networks, conversions. *)
From Verif Require Import Base NetIP IpNet Spec IpNetProofs.
Open Scope N_scope.

Lemma addr_val ip : valid_ip ip -> addr ip = (if (length ip =? 4)%nat then v4base else 0) + val ip.
Proof. intros [H|H]; unfold addr; rewrite H; cbn; reflexivity. Qed.

Lemma NextIP_addr ip : valid_ip ip -> ~ all_ones ip -> addr (NextIP ip) = addr ip + 1.
Proof.
  intros V Ha. rewrite !addr_val by auto using NextIP_valid. rewrite NextIP_length, NextIP_val.
  pose proof (val_bound ip). unfold all_ones in Ha. rewrite N.mod_small by alia. lia.
Qed.
Lemma NextIP_addr_ones ip : valid_ip ip -> all_ones ip ->
  addr (NextIP ip) = (if (length ip =? 4)%nat then v4base else 0).
Proof.
  intros V Ha. rewrite !addr_val by auto using NextIP_valid. rewrite NextIP_length, NextIP_val.
  unfold all_ones in Ha. rewrite Ha, N.mod_same by (apply N.pow_nonzero; discriminate). lia.
Qed.

Lemma Contains_spec s e ip : valid_ip s -> valid_ip e -> valid_ip ip -> ~ all_ones e ->
  Contains s e ip = true <-> addr s <= addr ip <= addr e.
Proof.
  intros Vs Ve Vi Ho. unfold Contains. rewrite !IPLess_addr by auto using NextIP_valid.
  rewrite NextIP_addr by assumption. lia.
Qed.
Lemma Contains_ones s e ip : valid_ip s -> valid_ip e -> valid_ip ip -> all_ones e ->
  (length e = 4%nat -> v4base <= addr s) ->
  Contains s e ip = false.
Proof.
  intros Vs Ve Vi Ho Hs. unfold Contains. rewrite !IPLess_addr by auto using NextIP_valid.
  rewrite NextIP_addr_ones by assumption.
  destruct (Nat.eqb_spec (length e) 4) as [E|E]; [specialize (Hs E)|]; lia.
Qed.

Lemma Join_true r r2 r' : wf_range r -> wf_range r2 -> Join r r2 = (true, r') ->
  addr (rStart r) <= addr (rStart r2) <= addr (rEnd r) + 1 /\ wf_range r' /\
  forall a, in_range r' a <-> in_range r a \/ in_range r2 a.
Proof.
  intros [A1 A2 A3] [B1 B2 B3]. unfold Join.
  rewrite !IPLess_addr by auto using NextIP_valid.
  destruct (_ || _) eqn:E; [discriminate|]. apply orb_false_elim in E as [E1 E2].
  intros H. injection H as <-.
  assert (addr (NextIP (rEnd r)) <= addr (rEnd r) + 1) as Hn.
  { destruct (N.eq_dec (val (rEnd r) + 1) (2 ^ (8 * N.of_nat (length (rEnd r))))) as [O|O].
    - rewrite NextIP_addr_ones, (addr_val (rEnd r)) by assumption. lia.
    - rewrite NextIP_addr by assumption. lia. }
  split; [lia|]. unfold in_range. cbn [rStart rEnd].
  destruct (addr (rEnd r2) <? addr (rEnd r)) eqn:E; cbn [negb].
  - split; [constructor; assumption|]. intros a. lia.
  - split; [constructor; cbn [rStart rEnd]; [assumption|assumption|lia]|]. intros a. lia.
Qed.
Lemma Join_false r r2 r' : Join r r2 = (false, r') -> r' = r.
Proof. unfold Join. destruct (_ || _); congruence. Qed.
Lemma Join_complete r r2 : wf_range r -> wf_range r2 -> ~ all_ones (rEnd r) ->
  addr (rStart r) <= addr (rStart r2) <= addr (rEnd r) + 1 -> fst (Join r r2) = true.
Proof.
  intros [A1 A2 A3] [B1 B2 B3] Ho H. unfold Join.
  rewrite !IPLess_addr by auto using NextIP_valid. rewrite NextIP_addr by assumption.
  replace (_ || _) with false by lia. reflexivity.
Qed.

(** Last address of a network, as a number. *)
Lemma LastIP_addr n b : net_is n b -> exists l, LastIP n = Ok l /\ length l = length (nIP n) /\
  addr l = (addr (nIP n) / 2 ^ logsz b + 1) * 2 ^ logsz b - 1.
Proof.
  intros H. destruct (LastIP_spec n b H) as [l [E1 [E2 E3]]]. exists l. split; [assumption|]. split; [assumption|].
  pose proof (ni_len _ _ H) as V. pose proof (ni_logsz _ _ H) as Hk.
  rewrite addr_val by (unfold valid_ip in *; rewrite E2; assumption). rewrite E2, E3.
  rewrite (addr_val (nIP n)) by assumption.
  pose proof (pow_pos (logsz b)) as P.
  destruct V as [V|V]; rewrite V; cbn [Nat.eqb].
  - rewrite V in Hk. change (8 * N.of_nat 4) with 32 in Hk.
    assert (v4base = (0xffff * 2 ^ (32 - logsz b)) * 2 ^ logsz b) as Ev.
    { rewrite <- N.mul_assoc, <- N.pow_add_r. unfold v4base. f_equal. f_equal. flia. }
    rewrite Ev. set (q := 0xffff * 2 ^ (32 - logsz b)). clearbody q. set (K := 2 ^ logsz b) in *. clearbody K.
    rewrite (N.add_comm (q * K) (val (nIP n))), N.div_add by lia.
    set (d := val (nIP n) / K). clearbody d. clear - P.
    nia.
  - rewrite !N.add_0_l. reflexivity.
Qed.

Lemma last_aligned a k : a mod 2 ^ k = 0 -> (a / 2 ^ k + 1) * 2 ^ k - 1 = a + 2 ^ k - 1.
Proof.
  intros H. pose proof (pow_pos k). pose proof (N.div_mod a (2 ^ k) ltac:(lia)) as D. rewrite H in D.
  rewrite N.mul_add_distr_r, (N.mul_comm (a / 2 ^ k)). rewrite N.add_0_r in D. rewrite <- D. lia.
Qed.

Lemma LastIP_aligned n b : net_is n b -> aligned b -> exists l, LastIP n = Ok l /\ length l = length (nIP n) /\
  addr l = base b + 2 ^ logsz b - 1.
Proof.
  intros H Ha. destruct (LastIP_addr n b H) as [l [E1 [E2 E3]]]. exists l. split; [assumption|]. split; [assumption|].
  rewrite E3, <- (ni_base _ _ H). apply last_aligned. assumption.
Qed.

Lemma JoinIPNet_true r n b r' : wf_range r -> net_is n b -> aligned b -> JoinIPNet r n = Ok (true, r') ->
  addr (rStart r) <= base b <= addr (rEnd r) + 1 /\ wf_range r' /\
  forall a, in_range r' a <-> in_range r a \/ in_block b a.
Proof.
  intros W Hn Ha. destruct W as [A1 A2 A3]. pose proof (ni_len _ _ Hn) as V.
  destruct (LastIP_aligned n b Hn Ha) as [l [E1 [E2 E3]]].
  assert (valid_ip l) as Vl by (unfold valid_ip in *; rewrite E2; assumption).
  pose proof (ni_base _ _ Hn) as Eb. pose proof (pow_pos (logsz b)) as P.
  unfold JoinIPNet. rewrite E1. cbn [bind].
  rewrite !IPLess_addr by auto using NextIP_valid, to16_valid. rewrite !to16_addr by assumption. rewrite <- Eb.
  destruct (_ || _) eqn:E; [discriminate|]. apply orb_false_elim in E as [E4 E5].
  assert (addr (NextIP (rEnd r)) <= addr (rEnd r) + 1) as Hnx.
  { destruct (N.eq_dec (val (rEnd r) + 1) (2 ^ (8 * N.of_nat (length (rEnd r))))) as [O|O].
    - rewrite NextIP_addr_ones, (addr_val (rEnd r)) by assumption. lia.
    - rewrite NextIP_addr by assumption. lia. }
  unfold in_range, in_block.
  destruct (addr l <? addr (rEnd r)) eqn:E; cbn [negb]; intros H; injection H as <-; cbn [rStart rEnd].
  - split; [alia|]. split; [constructor; assumption|]. intros a. alia.
  - split; [alia|]. split; [constructor; cbn [rStart rEnd]; rewrite ?to16_addr by assumption; auto using to16_valid; alia|].
    rewrite to16_addr by assumption. intros a. alia.
Qed.
Lemma JoinIPNet_false r n r' : JoinIPNet r n = Ok (false, r') -> r' = r.
Proof.
  unfold JoinIPNet. destruct (_ || _); [congruence|].
  destruct (LastIP n); cbn [bind]; try discriminate. destruct (negb _); congruence.
Qed.
Lemma JoinIPNet_total r n b : wf_range r -> net_is n b -> exists ok r', JoinIPNet r n = Ok (ok, r').
Proof.
  intros _ Hn. unfold JoinIPNet. destruct (LastIP_spec n b Hn) as [l [-> _]]. cbn [bind].
  destruct (_ || _); [eauto|]. destruct (negb _); eauto.
Qed.
Lemma JoinIPNet_complete r n b : wf_range r -> net_is n b -> ~ all_ones (rEnd r) ->
  addr (rStart r) <= base b <= addr (rEnd r) + 1 -> exists r', JoinIPNet r n = Ok (true, r').
Proof.
  intros [A1 A2 A3] Hn Ho H. unfold JoinIPNet. destruct (LastIP_spec n b Hn) as [l [-> _]]. cbn [bind].
  pose proof (ni_len _ _ Hn) as V.
  rewrite !IPLess_addr by auto using NextIP_valid, to16_valid. rewrite NextIP_addr, !to16_addr by assumption.
  rewrite <- (ni_base _ _ Hn). replace (_ || _) with false by lia.
  destruct (IPLess _ _); cbn [negb]; eauto.
Qed.

Lemma CommonRange_true r ip r2 r' : wf_range r -> wf_range r2 -> valid_ip ip ->
  ~ all_ones (rEnd r) -> ~ all_ones (rEnd r2) -> CommonRange r ip r2 = (true, r') ->
  in_range r (addr ip) /\ in_range r2 (addr ip) /\ wf_range r' /\
  forall a, in_range r' a <-> in_range r a /\ in_range r2 a.
Proof.
  intros [A1 A2 A3] [B1 B2 B3] Vi O1 O2. unfold CommonRange.
  rewrite !IPLess_addr by auto using NextIP_valid. rewrite NextIP_addr by assumption.
  destruct (_ || _) eqn:E; [discriminate|]. apply orb_false_elim in E as [E1 E2].
  unfold in_range.
  destruct (addr (rStart r) <? addr (rStart r2)) eqn:E3; destruct (addr (rEnd r2) <? addr (rEnd r)) eqn:E4;
  (destruct (Contains _ _ ip) eqn:E5; cbn [negb]; [|discriminate]; intros H; injection H as <-;
   apply Contains_spec in E5; [|assumption..]; cbn [rStart rEnd];
   split; [lia|]; split; [lia|]; split; [constructor; cbn [rStart rEnd]; (assumption || lia)|]; intros a; lia).
Qed.
Lemma CommonRange_false r ip r2 r' : CommonRange r ip r2 = (false, r') -> r' = r.
Proof. unfold CommonRange. destruct (_ || _); [congruence|]. destruct (negb _); congruence. Qed.
Lemma CommonRange_complete r ip r2 : wf_range r -> wf_range r2 -> valid_ip ip ->
  ~ all_ones (rEnd r) -> ~ all_ones (rEnd r2) ->
  in_range r (addr ip) -> in_range r2 (addr ip) -> fst (CommonRange r ip r2) = true.
Proof.
  intros [A1 A2 A3] [B1 B2 B3] Vi O1 O2 I1 I2. unfold CommonRange, in_range in *.
  rewrite !IPLess_addr by auto using NextIP_valid. rewrite NextIP_addr by assumption.
  replace (_ || _) with false by lia.
  match goal with |- context [Contains ?s ?e ip] => assert (Contains s e ip = true) as -> end; [|reflexivity].
  destruct (addr (rStart r) <? addr (rStart r2)) eqn:E3; destruct (addr (rEnd r2) <? addr (rEnd r)) eqn:E4;
  apply Contains_spec; (assumption || lia).
Qed.

(** NewRange is the set of addresses of the network. *)
Lemma NewRange_spec n b : net_is n b -> aligned b -> exists r, NewRange n = Ok r /\ wf_range r /\
  length (rStart r) = 16%nat /\ length (rEnd r) = 16%nat /\
  forall a, in_range r a <-> in_block b a.
Proof.
  intros Hn Ha. pose proof (ni_len _ _ Hn) as V.
  destruct (LastIP_aligned n b Hn Ha) as [l [E1 [E2 E3]]].
  assert (valid_ip l) as Vl by (unfold valid_ip in *; rewrite E2; assumption).
  unfold NewRange. rewrite E1. cbn [bind]. eexists. split; [reflexivity|].
  pose proof (ni_base _ _ Hn) as Eb. pose proof (pow_pos (logsz b)) as P.
  unfold in_range, in_block. cbn [rStart rEnd]. rewrite !to16_addr by assumption. rewrite !to16_length by assumption.
  split; [constructor; cbn [rStart rEnd]; rewrite ?to16_addr by assumption; auto using to16_valid; alia|].
  split; [reflexivity|]. split; [reflexivity|]. intros a. alia.
Qed.

(* ---------- conversions ---------- *)
Lemma shiftr_be u : u < 2 ^ 32 ->
  [n2b (N.shiftr u 24); n2b (N.shiftr u 16); n2b (N.shiftr u 8); n2b u] = be_enc 4 u.
Proof.
  intros H. cbn [be_enc]. rewrite !N.shiftr_div_pow2.
  change (8 * N.of_nat 3) with 24. change (8 * N.of_nat 2) with 16. change (8 * N.of_nat 1) with 8.
  change (8 * N.of_nat 0) with 0. rewrite N.pow_0_r, N.div_1_r. reflexivity.
Qed.
Lemma Uint32ToIPv4_spec u : u < 2 ^ 32 ->
  length (Uint32ToIPv4 u) = 16%nat /\ addr (Uint32ToIPv4 u) = v4base + u.
Proof.
  intros H. unfold Uint32ToIPv4, IPv4. rewrite shiftr_be by assumption.
  split; [rewrite app_length, be_enc_length; reflexivity|].
  rewrite addr_16 by (rewrite app_length, be_enc_length; reflexivity).
  rewrite val_app, be_enc_length, val_be_enc, val_v4prefix.
  change (8 * N.of_nat 4) with 32. rewrite N.mod_small by assumption. reflexivity.
Qed.
Lemma IPv4ToUint32_len4 ip : length ip = 4%nat -> to4 ip = ip ->
  exists a b c d, ip = [a; b; c; d].
Proof. destruct ip as [|a [|b [|c [|d [|]]]]]; try discriminate. eauto. Qed.
Lemma val4 a b c d : val [a; b; c; d] = N.shiftl (b2n a) 24 + N.shiftl (b2n b) 16 + N.shiftl (b2n c) 8 + b2n d.
Proof.
  cbn [val length]. rewrite !N.shiftl_mul_pow2.
  change (8 * N.of_nat 3) with 24. change (8 * N.of_nat 2) with 16. change (8 * N.of_nat 1) with 8.
  change (2 ^ (8 * N.of_nat 0)) with 1. lia.
Qed.

Lemma u64_bytes_enc u : u64_bytes u = be_enc 8 u.
Proof.
  unfold u64_bytes. cbn [map be_enc]. rewrite !N.shiftr_div_pow2. reflexivity.
Qed.
Lemma Uint64ToIP2_spec h l : h < 2 ^ 64 -> l < 2 ^ 64 ->
  length (Uint64ToIP2 h l) = 16%nat /\ addr (Uint64ToIP2 h l) = h * 2 ^ 64 + l.
Proof.
  intros Hh Hl. unfold Uint64ToIP2. rewrite !u64_bytes_enc.
  assert (length (be_enc 8 h ++ be_enc 8 l) = 16%nat) as L by (rewrite app_length, !be_enc_length; reflexivity).
  split; [assumption|]. rewrite addr_16 by assumption.
  rewrite val_app, be_enc_length, !val_be_enc. change (8 * N.of_nat 8) with 64.
  rewrite !N.mod_small by assumption. reflexivity.
Qed.
Lemma Uint64ToIP_spec h : h < 2 ^ 64 ->
  length (Uint64ToIP h) = 16%nat /\ addr (Uint64ToIP h) = h * 2 ^ 64.
Proof.
  intros Hh. unfold Uint64ToIP. rewrite u64_bytes_enc.
  assert (length (be_enc 8 h ++ repeat x00 8) = 16%nat) as L by (rewrite app_length, !be_enc_length; reflexivity).
  split; [assumption|]. rewrite addr_16 by assumption.
  rewrite val_app, val_be_enc. change (length (repeat x00 8)) with 8%nat. change (val (repeat x00 8)) with 0.
  change (8 * N.of_nat 8) with 64. rewrite !N.mod_small by assumption. lia.
Qed.

Lemma IPv4ToUint32_v4 ip : valid_ip ip -> is_v4 (addr ip) -> IPv4ToUint32 ip = Ok (addr ip - v4base).
Proof.
  intros V H. destruct (to4_spec ip V) as [T1 T2]. unfold is_v4, v4base in H.
  assert (to4 ip <> []) as Hn by (apply T1; lia). destruct (T2 Hn) as [L A].
  unfold IPv4ToUint32. destruct (to4 ip) as [|a [|b [|c [|d [|]]]]] eqn:E; try discriminate.
  rewrite <- val4, <- A. unfold addr. cbn [length Nat.eqb]. fold v4base. f_equal. lia.
Qed.
Lemma IPv4ToUint32_panic ip : valid_ip ip -> ~ is_v4 (addr ip) -> IPv4ToUint32 ip = Panic.
Proof.
  intros V H. destruct (to4_spec ip V) as [T1 _]. unfold is_v4, v4base in H.
  unfold IPv4ToUint32. destruct (to4 ip) as [|a l] eqn:E; [reflexivity|].
  exfalso. apply H. assert (a :: l <> []) as Hn by discriminate. apply T1 in Hn. lia.
Qed.
Lemma IPv4ToUint32_panic_len ip : ~ valid_ip ip -> IPv4ToUint32 ip = Panic.
Proof.
  intros V. unfold IPv4ToUint32, to4. unfold valid_ip in V.
  destruct (Nat.eqb_spec (length ip) 4); [tauto|]. destruct (Nat.eqb_spec (length ip) 16); [tauto|]. reflexivity.
Qed.

(** Two spellings of one address have the same 16-byte form. *)
Lemma to16_eq a b : valid_ip a -> valid_ip b -> addr a = addr b -> to16 a = to16 b.
Proof.
  intros Va Vb H. apply val_inj; [rewrite !to16_length by assumption; reflexivity|].
  rewrite !to16_val by assumption. assumption.
Qed.
Lemma addr_inj a b : length a = length b -> valid_ip a -> addr a = addr b -> a = b.
Proof.
  intros L V H. assert (valid_ip b) as Vb by (unfold valid_ip in *; rewrite <- L; assumption).
  rewrite !addr_val in H by assumption. rewrite L in H. apply val_inj; [assumption|lia].
Qed.

(* ---------- masking ---------- *)
Lemma and_mask b n : (n < 8)%nat ->
  b2n (byte_and b (mask_byte n)) = (b2n b / 2 ^ (8 - N.of_nat n)) * 2 ^ (8 - N.of_nat n).
Proof.
  intros H. apply N.eqb_eq.
  do 8 (destruct n as [|n]; [revert b; apply byte_forall; vm_compute; reflexivity|]). lia.
Qed.
Lemma and_ff b : byte_and b xff = b.
Proof.
  assert (forall b, byte_eqb (byte_and b xff) b = true) as K by (apply byte_forall; vm_compute; reflexivity).
  specialize (K b). destruct (byte_eqb_spec (byte_and b xff) b); congruence.
Qed.
Lemma and_zero l k : length l = k -> val (zip_with byte_and l (mask_bytes k 0)) = 0.
Proof.
  revert l; induction k as [|k IH]; intros [|b l] H; try discriminate; [reflexivity|].
  cbn [mask_bytes Nat.leb zip_with val]. injection H as H. rewrite IH by assumption.
  rewrite and_mask by lia. change (2 ^ (8 - N.of_nat 0)) with 256.
  rewrite N.div_small by apply b2n_lt. lia.
Qed.
Lemma mask_val l ones : (ones <= 8 * length l)%nat ->
  val (zip_with byte_and l (mask_bytes (length l) ones)) =
  val l / 2 ^ (8 * N.of_nat (length l) - N.of_nat ones) * 2 ^ (8 * N.of_nat (length l) - N.of_nat ones).
Proof.
  revert ones; induction l as [|b l IH]; intros ones H.
  - cbn. reflexivity.
  - cbn [length mask_bytes]. destruct (Nat.leb_spec 8 ones) as [L|L].
    + cbn [zip_with val]. rewrite and_ff, IH by (cbn [length] in H; lia).
      rewrite zip_with_length by (rewrite mask_bytes_length; reflexivity).
      replace (8 * N.of_nat (S (length l)) - N.of_nat ones)
        with (8 * N.of_nat (length l) - N.of_nat (ones - 8)) by lia.
      set (h := 8 * N.of_nat (length l) - N.of_nat (ones - 8)).
      assert (2 ^ (8 * N.of_nat (length l)) = 2 ^ (8 * N.of_nat (length l) - h) * 2 ^ h) as E.
      { rewrite <- N.pow_add_r. f_equal. lia. }
      rewrite E at 2. pose proof (pow_pos h).
      rewrite N.mul_assoc, (N.add_comm (b2n b * 2 ^ (8 * N.of_nat (length l) - h) * 2 ^ h) (val l)).
      rewrite N.div_add by (apply N.pow_nonzero; discriminate).
      rewrite E. rewrite (N.mul_add_distr_r (val l / 2 ^ h)). lia.
    + cbn [zip_with val]. rewrite and_zero by reflexivity. rewrite and_mask by assumption.
      rewrite zip_with_length by (rewrite mask_bytes_length; reflexivity).
      replace (8 * N.of_nat (S (length l)) - N.of_nat ones)
        with ((8 - N.of_nat ones) + 8 * N.of_nat (length l)) by lia.
      rewrite N.pow_add_r. set (P := 2 ^ (8 * N.of_nat (length l))). set (Q := 2 ^ (8 - N.of_nat ones)).
      assert (0 < P) by apply pow_pos. assert (0 < Q) by apply pow_pos.
      pose proof (val_bound l) as B. fold P in B.
      rewrite (N.mul_comm Q P), <- N.div_div by lia.
      rewrite (N.add_comm (b2n b * P) (val l)).
      rewrite N.div_add, (N.div_small (val l)) by lia. rewrite N.add_0_l, N.add_0_r. ring.
Qed.

(** ipnet.IpNet of an address and a prefix length that is legal for its family. *)
Lemma IpNet_spec ip (m : nat) : valid_ip ip ->
  (m <= if is_nil (to4 ip) then 128 else 32)%nat ->
  exists k, N.of_nat m + k = (if is_nil (to4 ip) then 128 else 32) /\
  net_is (IpNet ip (Z.of_nat m)) (mkBlock (addr ip / 2 ^ k * 2 ^ k) k).
Proof.
  intros V Hm. destruct (to4_spec ip V) as [T1 T2].
  destruct (to4 ip) as [|t0 t] eqn:E; cbn [is_nil] in *.
  - (* IPv6 *)
    assert (length ip = 16%nat) as L.
    { destruct V as [V|V]; [|assumption]. unfold to4 in E. rewrite V in E. cbn [Nat.eqb] in E. subst ip. discriminate. }
    exists (128 - N.of_nat m). split; [lia|].
    unfold IpNet. rewrite E. cbn [is_nil]. rewrite (to16_id ip L), L.
    rewrite CIDRMask_ok by lia.
    assert (ip_mask ip (mask_bytes 16 m) = zip_with byte_and ip (mask_bytes 16 m)) as ->.
    { unfold ip_mask. rewrite mask_bytes_length, L. cbn [Nat.eqb andb]. rewrite mask_bytes_length. cbn [Nat.eqb andb]. rewrite L. reflexivity. }
    assert (length (zip_with byte_and ip (mask_bytes 16 m)) = 16%nat) as Lz by (rewrite zip_with_length; rewrite ?mask_bytes_length; assumption).
    constructor; cbn [nIP nMask base logsz].
    + right. assumption.
    + rewrite mask_bytes_length, Lz. reflexivity.
    + rewrite Lz. lia.
    + rewrite mask_bytes_val by lia. rewrite Lz. reflexivity.
    + rewrite !addr_16 by assumption. pose proof (mask_val ip m) as M. rewrite L in M. rewrite M by lia. reflexivity.
  - destruct (T2 ltac:(discriminate)) as [L A].
    exists (32 - N.of_nat m). split; [lia|].
    unfold IpNet. rewrite E. cbn [is_nil]. rewrite L. rewrite CIDRMask_ok by lia.
    assert (ip_mask ip (mask_bytes 4 m) = zip_with byte_and (t0 :: t) (mask_bytes 4 m)) as ->.
    { unfold ip_mask. rewrite mask_bytes_length. cbn [Nat.eqb andb].
      unfold to4 in E. destruct V as [V|V]; rewrite V in *; cbn [Nat.eqb andb] in *.
      - rewrite mask_bytes_length. cbn [Nat.eqb andb]. rewrite V. cbn [Nat.eqb]. congruence.
      - destruct (bytes_eqb (firstn 12 ip) v4prefix) eqn:F; [|discriminate].
        rewrite mask_bytes_length. cbn [Nat.eqb andb]. rewrite E, L. cbn [Nat.eqb]. reflexivity. }
    assert (length (zip_with byte_and (t0 :: t) (mask_bytes 4 m)) = 4%nat) as Lz by (rewrite zip_with_length; rewrite ?mask_bytes_length; assumption).
    set (z := zip_with byte_and (t0 :: t) (mask_bytes 4 m)) in *.
    assert (val z = val (t0 :: t) / 2 ^ (32 - N.of_nat m) * 2 ^ (32 - N.of_nat m)) as M.
    { unfold z. pose proof (mask_val (t0 :: t) m) as M. rewrite L in M. rewrite M by lia. reflexivity. }
    constructor; cbn [nIP nMask base logsz].
    + left. assumption.
    + rewrite mask_bytes_length, Lz. reflexivity.
    + rewrite Lz. lia.
    + rewrite mask_bytes_val by lia. rewrite Lz. reflexivity.
    + rewrite <- A. unfold addr. rewrite L, Lz. cbn [Nat.eqb]. fold v4base. rewrite M.
      set (k := 32 - N.of_nat m). pose proof (pow_pos k).
      assert (v4base = (0xffff * 2 ^ (32 - k)) * 2 ^ k) as Ev.
      { rewrite <- N.mul_assoc, <- N.pow_add_r. unfold v4base. f_equal. f_equal. unfold k. lia. }
      rewrite Ev. set (q := 0xffff * 2 ^ (32 - k)). rewrite (N.add_comm (q * 2 ^ k) (val (t0 :: t))), N.div_add by lia.
      lia.
Qed.

Lemma floor_in a k : in_block (mkBlock (a / 2 ^ k * 2 ^ k) k) a.
Proof.
  unfold in_block. cbn [base logsz]. pose proof (pow_pos k).
  pose proof (N.div_mod a (2 ^ k) ltac:(lia)). pose proof (N.mod_lt a (2 ^ k) ltac:(lia)).
  rewrite (N.mul_comm (a / 2 ^ k)). alia.
Qed.
Lemma floor_aligned a k : aligned (mkBlock (a / 2 ^ k * 2 ^ k) k).
Proof. unfold aligned. cbn [base logsz]. apply N.mod_mul, N.pow_nonzero. discriminate. Qed.
Lemma in_block_floor a x k : in_block (mkBlock (a / 2 ^ k * 2 ^ k) k) x <-> x / 2 ^ k = a / 2 ^ k.
Proof.
  unfold in_block. cbn [base logsz]. pose proof (pow_pos k).
  pose proof (N.div_mod x (2 ^ k) ltac:(lia)) as D. pose proof (N.mod_lt x (2 ^ k) ltac:(lia)) as M.
  split.
  - intros I. set (K := 2 ^ k) in *. set (q := a / K) in *. symmetry.
    apply (N.div_unique x K q (x - q * K)); lia.
  - intros <-. rewrite (N.mul_comm (x / 2 ^ k)). alia.
Qed.

(* ---------- ordering of networks, first addresses ---------- *)
Lemma mask_size_net n b : net_is n b ->
  mask_size (nMask n) = (8 * length (nIP n) - N.to_nat (logsz b), 8 * length (nIP n))%nat.
Proof.
  intros [V Ml Hk Hm Hb].
  rewrite (mask_unique (nMask n) (length (nIP n)) (logsz b)) by assumption.
  rewrite mask_size_ok by lia. reflexivity.
Qed.

(* ---------- from tilings to sets ---------- *)
Lemma tiles_le s bs e : tiles s bs e -> s <= e.
Proof.
  revert s; induction bs as [|b bs IH]; cbn [tiles]; intros s H; [lia|].
  destruct H as [_ [_ H]]. apply IH in H. lia.
Qed.
Lemma tiles_covers s bs e : tiles s bs e -> covers bs s e.
Proof.
  revert s; induction bs as [|b bs IH]; cbn [tiles]; intros s H.
  - split; [constructor|]. intros a. split; [intros [b [[] _]]|lia].
  - destruct H as [Hb [Ha H]]. pose proof (tiles_le _ _ _ H) as L. destruct (IH _ H) as [C1 C2].
    split; [constructor; assumption|]. intros a. split.
    + intros [c [[->|Hc] Hin]].
      * unfold in_block in Hin. alia.
      * assert (s + 2 ^ logsz b <= a < e) by (apply C2; eauto). alia.
    + intros Hin. destruct (N.lt_ge_cases a (s + 2 ^ logsz b)) as [Q|Q].
      * exists b. split; [left; reflexivity|]. unfold in_block. alia.
      * destruct (proj2 (C2 a)) as [c [Hc I]]; [alia|]. exists c. split; [right; assumption|assumption].
Qed.
(** The blocks of a tiling are in ascending order, so they are disjoint. *)
Lemma tiles_sorted s bs e : tiles s bs e ->
  forall i j bi bj, (i < j)%nat -> nth_error bs i = Some bi -> nth_error bs j = Some bj ->
  base bi + 2 ^ logsz bi <= base bj.
Proof.
  revert s; induction bs as [|b bs IH]; cbn [tiles]; intros s H i j bi bj Hij Hi Hj; [destruct i; discriminate|].
  destruct H as [Hb [Ha H]]. destruct j as [|j]; [lia|]. cbn [nth_error] in Hj.
  destruct i as [|i]; cbn [nth_error] in Hi.
  - injection Hi as <-. apply nth_error_In in Hj.
    destruct (tiles_covers _ _ _ H) as [_ C].
    assert (s + 2 ^ logsz b <= base bj < e).
    { apply C. exists bj. split; [assumption|]. split; [lia|]. pose proof (pow_pos (logsz bj)). lia. }
    alia.
  - eapply (IH _ H i j); eauto; lia.
Qed.
