(** The Rust and Java readers walk a packed tree like the Go reader. *)
From Verif Require Import Base NetIP IpNet Spec IpNetProofs SplitProofs IpNetProofs2 Ipdb SpecIpdb Foreign Bits.
From Verif Require Import TrieProofs WriterProofs ReaderProofs OpenProofs PackProofs.
Open Scope Z_scope.

(** [rd] reads the inner nodes as the Go reader does. *)
Definition reads_like (rd : Z -> bool -> res Z) (data : bytes) (nc : Z) : Prop :=
  forall node b v, 0 <= node < nc -> readNode data node b = Ok v -> rd node b = Ok v.

Lemma depth_loop_walk rd data nc : reads_like rd data nc -> forall cnt i node ip n k,
  0 <= node -> (i + cnt <= length (bits ip))%nat ->
  rwalk data nc (firstn cnt (skipn i (bits ip))) node = Ok (n, k) ->
  depth_loop rd nc cnt i node ip = Ok n.
Proof.
  intros HR. induction cnt as [|cnt IH]; intros i node ip n k H0 L W; cbn [depth_loop].
  - cbn [firstn rwalk] in W. injection W as -> _. reflexivity.
  - destruct (skipn i (bits ip)) as [|b r] eqn:E.
    { apply (f_equal (@length _)) in E. rewrite skipn_length in E. cbn in E. lia. }
    cbn [firstn rwalk] in W. destruct (Z.leb_spec nc node) as [Ln|Ln]; [injection W as -> _; reflexivity|].
    rewrite (ip_bit_ok _ _ _ _ E).
    cbn [bind]. destruct (readNode data node b) as [v| | |] eqn:R; cbn [bind] in W; try discriminate.
    rewrite (HR node b v (conj H0 Ln) R). cbn [bind].
    destruct (rwalk data nc (firstn cnt r) v) as [[n' k']| | |] eqn:W2; cbn [bind] in W; try discriminate.
    injection W as <- <-. apply (IH (S i) v ip n' k').
    + apply readNode_bound in R. lia.
    + lia.
    + rewrite (skipn_S' _ _ _ _ E). assumption.
Qed.

(** The walk to the IPv4 part. *)
Lemma j_v4walk_walk rd data nc : reads_like rd data nc -> forall cnt i node n k, 0 <= node -> (i + cnt <= 96)%nat ->
  rwalk data nc (firstn cnt (skipn i v4bits)) node = Ok (n, k) -> j_v4walk rd nc cnt i node = Ok n.
Proof.
  intros HR. induction cnt as [|cnt IH]; intros i node n k H0 H W; cbn [j_v4walk].
  - cbn [firstn rwalk] in W. injection W as -> _. reflexivity.
  - assert (skipn i v4bits = (80 <=? i)%nat :: skipn (S i) v4bits) as E.
    { assert (i < 96)%nat as L by lia. clear - L. do 96 (destruct i as [|i]; [reflexivity|]). lia. }
    rewrite E in W. cbn [firstn rwalk] in W. destruct (Z.ltb_spec node nc) as [L|L].
    + replace (nc <=? node) with false in W by lia.
      destruct (readNode data node (80 <=? i)%nat) as [v| | |] eqn:R; cbn [bind] in W; try discriminate.
      rewrite (HR _ _ _ (conj H0 L) R). cbn [bind].
      destruct (rwalk data nc (firstn cnt (skipn (S i) v4bits)) v) as [[n' k']| | |] eqn:W2; cbn [bind] in W; try discriminate.
      injection W as <- <-. apply (IH (S i) v n' k'); [apply readNode_bound in R; lia|lia|assumption].
    + replace (nc <=? node) with true in W by lia. injection W as -> _. reflexivity.
Qed.
Lemma rs_v4walk_j rd nc : forall cnt i node, node < nc -> rs_v4walk rd nc cnt i node = j_v4walk rd nc cnt i node.
Proof.
  induction cnt as [|cnt IH]; intros i node L; cbn [rs_v4walk j_v4walk]; [reflexivity|].
  replace (node <? nc) with true by lia. destruct (rd node _) as [n| | |]; cbn [bind]; try reflexivity.
  destruct (Z.leb_spec nc n) as [Ln|Ln].
  - destruct cnt; cbn [j_v4walk]; [reflexivity|]. replace (n <? nc) with false by lia. reflexivity.
  - apply IH. assumption.
Qed.

(** The prefix cache of 12 bits. *)
Definition index_check12 (b0 b1 : byte) : bool :=
  match bytesToIndex12 [b0; b1] with
  | Ok i => (i <? 4096)%N && list_eqb Bool.eqb (firstn 12 (bits (indexToBytes12 i))) (firstn 12 (bits [b0; b1]))
  | _ => false
  end.
Lemma index_check12_all : forallb (fun b0 => forallb (index_check12 b0) all_bytes) all_bytes = true.
Proof. vm_compute. reflexivity. Qed.
Lemma bytesToIndex12_spec b0 b1 r : exists i, bytesToIndex12 (b0 :: b1 :: r) = Ok i /\ (i < 4096)%N /\
  firstn 12 (bits (indexToBytes12 i)) = firstn 12 (bits (b0 :: b1 :: r)).
Proof.
  pose proof index_check12_all as H. rewrite forallb_forall in H. specialize (H b0 (all_bytes_in b0)).
  rewrite forallb_forall in H. specialize (H b1 (all_bytes_in b1)). unfold index_check12 in H.
  change (bytesToIndex12 (b0 :: b1 :: r)) with (bytesToIndex12 [b0; b1]).
  destruct (bytesToIndex12 [b0; b1]) as [i| | |]; try discriminate. apply andb_true_iff in H as [H1 H2].
  exists i. split; [reflexivity|]. split; [apply N.ltb_lt; assumption|]. apply list_eqb_bool in H2. rewrite H2.
  reflexivity.
Qed.
Lemma seq_nth_error n s k : (k < n)%nat -> nth_error (seq s n) k = Some (s + k)%nat.
Proof.
  revert s k; induction n as [|n IH]; intros s k L; [lia|]. destruct k as [|k]; cbn [seq nth_error].
  - f_equal. lia.
  - rewrite IH by lia. f_equal. lia.
Qed.
Lemma cacheIndices12_nth i : (i < 4096)%N -> nth_error cacheIndices12 (N.to_nat i) = Some i.
Proof.
  intros H. unfold cacheIndices12. rewrite nth_error_map.
  assert (Nat.pow 2 12 = N.to_nat 4096) as -> by (vm_compute; reflexivity).
  rewrite seq_nth_error by lia. cbn [option_map Nat.add]. rewrite N2Nat.id. reflexivity.
Qed.

Lemma initCache12_ok rd data nc v4 : reads_like rd data nc -> 0 <= v4 ->
  (forall bs, exists n k, rwalk data nc bs v4 = Ok (n, k)) -> exists c, initCache12 rd nc v4 = Ok c.
Proof.
  intros HR H0 HW. unfold initCache12. apply mapM_total. intros i _.
  destruct (HW (firstn cacheDepth12 (skipn 0 (bits (indexToBytes12 i))))) as [n [k W]].
  exists n. apply (depth_loop_walk rd data nc HR cacheDepth12 0 v4 (indexToBytes12 i) n k); [assumption|rewrite bits_length; unfold cacheDepth12, indexToBytes12; cbn [length]; lia|assumption].
Qed.

Lemma find_node12_v4 rd data nc v4 c ip n k : reads_like rd data nc -> 0 <= v4 -> initCache12 rd nc v4 = Ok c ->
  length ip = 4%nat -> rwalk data nc (bits ip) v4 = Ok (n, k) ->
  find_node12 rd nc v4 (Some c) ip = if nc <=? n then Ok n else Err ErrDataNotExists.
Proof.
  intros HR H0 HC L W. pose proof (bits_len4 _ L) as Lb.
  unfold find_node12. rewrite L. cbn [Nat.mul Nat.add Nat.eqb].
  assert (rwalk data nc (firstn 12 (bits ip) ++ skipn 12 (bits ip)) v4 = Ok (n, k)) as W' by (rewrite firstn_skipn; assumption).
  rewrite rwalk_app in W'.
  destruct (rwalk data nc (firstn 12 (bits ip)) v4) as [[n1 k1]| | |] eqn:W1; cbn [bind] in W'; try discriminate.
  destruct (rwalk data nc (skipn 12 (bits ip)) n1) as [[n2 k2]| | |] eqn:W2; cbn [bind] in W'; try discriminate.
  injection W' as <- <-.
  destruct ip as [|b0 [|b1 r]]; try discriminate.
  destruct (bytesToIndex12_spec b0 b1 r) as [i [E [Hi EB]]]. rewrite E. cbn [bind].
  destruct (mapM_nth _ _ _ _ _ HC (cacheIndices12_nth i Hi)) as [e [En Es]].
  unfold idx. rewrite En. cbn [bind].
  assert (e = n1) as ->.
  { assert (depth_loop rd nc cacheDepth12 0 v4 (indexToBytes12 i) = Ok n1) as Q.
    { apply (depth_loop_walk rd data nc HR cacheDepth12 0 v4 (indexToBytes12 i) n1 k1); [assumption|rewrite bits_length; unfold cacheDepth12, indexToBytes12; cbn [length]; lia|].
      cbn [skipn]. change cacheDepth12 with 12%nat. rewrite EB. assumption. }
    rewrite Q in Es. injection Es as <-. reflexivity. }
  destruct (Z.leb_spec nc n1) as [L1|L1].
  - rewrite rwalk_done in W2 by assumption. injection W2 as <- _. replace (nc <=? n1) with true by lia. reflexivity.
  - assert (depth_loop rd nc (32 - cacheDepth12) cacheDepth12 n1 (b0 :: b1 :: r) = Ok n2) as ->; [|reflexivity].
    apply (depth_loop_walk rd data nc HR _ _ n1 _ n2 k2).
    + eapply rwalk_nonneg; [|exact W1]. assumption.
    + rewrite Lb. unfold cacheDepth12. lia.
    + change cacheDepth12 with 12%nat. rewrite (firstn_all2 (skipn 12 _)); [assumption|]. rewrite skipn_length, Lb. lia.
Qed.

Lemma find_node12_v6 rd data nc v4 c ip n k : reads_like rd data nc ->
  length ip = 16%nat -> rwalk data nc (bits ip) 0 = Ok (n, k) ->
  find_node12 rd nc v4 c ip = if nc <=? n then Ok n else Err ErrDataNotExists.
Proof.
  intros HR L W. pose proof (bits_len16 _ L) as Lb. unfold find_node12. rewrite L.
  change ((16 * 8)%nat =? 32)%nat with false. cbv iota.
  assert (depth_loop rd nc (16 * 8 - 0) 0 0 ip = Ok n) as ->.
  { apply (depth_loop_walk rd data nc HR _ _ 0 _ n k); [lia|rewrite Lb; cbn; lia|].
    cbn [skipn]. rewrite firstn_all2 by (rewrite Lb; cbn; lia). assumption. }
  destruct c; reflexivity.
Qed.

(* ---------- 32-bit arithmetic that stays in range ---------- *)
Lemma chk32_ok z : - 2 ^ 31 <= z < 2 ^ 31 -> chk32 z = Ok z.
Proof. intros H. unfold chk32. replace ((- 2 ^ 31 <=? z) && (z <? 2 ^ 31)) with true by lia. reflexivity. Qed.
Lemma wrap32_ok z : - 2 ^ 31 <= z < 2 ^ 31 -> wrap32 z = z.
Proof. intros H. unfold wrap32. rewrite Z.mod_small; lia. Qed.
Lemma i32_ok n : Z.of_N n < 2 ^ 31 -> i32 n = Z.of_N n.
Proof. intros H. unfold i32. replace (Z.of_N n <? 2 ^ 31) with true by lia. reflexivity. Qed.

Lemma zslice_len (l : bytes) lo n s : zslice l lo (lo + Z.of_nat n) = Ok s -> length s = n /\ 0 <= lo /\ lo + Z.of_nat n <= Z.of_nat (length l).
Proof.
  unfold zslice. destruct (Z.ltb_spec lo 0); [discriminate|]. destruct (Z.ltb_spec (lo + Z.of_nat n) 0); [discriminate|].
  intros H1. apply slice_Ok in H1 as [H1 ->]. rewrite firstn_length, skipn_length. lia.
Qed.
Lemma zslice_idx (l : bytes) lo n s k x : zslice l lo (lo + Z.of_nat n) = Ok s -> nth_error s k = Some x ->
  zidx l (lo + Z.of_nat k) = Ok x.
Proof.
  intros H Hk. destruct (zslice_len _ _ _ _ H) as [L [L0 L1]].
  assert (k < n)%nat as Lk by (rewrite <- L; apply nth_error_Some; congruence).
  unfold zslice in H. destruct (Z.ltb_spec lo 0); [discriminate|]. destruct (Z.ltb_spec (lo + Z.of_nat n) 0); [discriminate|].
  apply slice_Ok in H as [_ H]. unfold zidx, idx. replace (lo + Z.of_nat k <? 0) with false by lia.
  assert (nth_error l (Z.to_nat (lo + Z.of_nat k)) = Some x) as ->; [|reflexivity].
  rewrite H in Hk. rewrite <- (firstn_skipn (Z.to_nat lo) l).
  rewrite nth_error_app2 by (rewrite firstn_length; lia). rewrite firstn_length, Nat.min_l by lia.
  replace (Z.to_nat (lo + Z.of_nat k) - Z.to_nat lo)%nat with k by lia.
  rewrite <- Hk. rewrite <- (firstn_skipn (Z.to_nat (lo + Z.of_nat n) - Z.to_nat lo) (skipn (Z.to_nat lo) l)) at 1.
  rewrite nth_error_app1; [reflexivity|]. rewrite firstn_length, skipn_length. lia.
Qed.

Lemma be32_small v : 0 <= v < 65536 -> exists t, IntToBinaryBE v 32 = [x00; x00] ++ t.
Proof.
  intros H. unfold IntToBinaryBE. cbn [Z.eqb Pos.eqb]. rewrite Z.mod_small by lia.
  change (be_enc 4 (Z.to_N v)) with
    (n2b (Z.to_N v / 2 ^ (8 * N.of_nat 3))%N :: n2b (Z.to_N v / 2 ^ (8 * N.of_nat 2))%N :: be_enc 2 (Z.to_N v)).
  exists (be_enc 2 (Z.to_N v)).
  rewrite (N.div_small _ (2 ^ (8 * N.of_nat 3))) by (change (2 ^ (8 * N.of_nat 3))%N with 16777216%N; lia).
  rewrite (N.div_small _ (2 ^ (8 * N.of_nat 2))) by (change (2 ^ (8 * N.of_nat 2))%N with 65536%N; lia).
  reflexivity.
Qed.

Section Small.
Context (w : Writer) (P : list path_t) (m : list (block * bytes)).
Hypothesis HW : winv w P m.
Hypothesis HS : Z.of_nat (length (body w)) < 2 ^ 31.
Let nc := Z.of_nat (length (wNode w)).

Lemma small_fits : fits w.
Proof. unfold fits. lia. Qed.
Lemma nc_pos : 0 < nc.
Proof.
  pose proof (ti_root _ _ (wi_t _ _ _ HW)) as R. pose proof (ti_len _ _ (wi_t _ _ _ HW)) as L.
  assert (0 < length P)%nat by (apply nth_error_Some; congruence). unfold nc. lia.
Qed.
Lemma nc_small : nc * 8 + 8 < 2 ^ 31.
Proof. pose proof (body_length w) as B. fold nc in B. lia. Qed.

Lemma node_small node b v : 0 <= node < nc -> readNode (body w) node b = Ok v -> 0 <= v < 2 ^ 31.
Proof.
  intros Hn R. pose proof (wi_t _ _ _ HW) as HT.
  assert (Z.to_nat node < length P)%nat as Lp by (rewrite (ti_len _ _ HT); unfold nc in Hn; lia).
  destruct (nth_error P (Z.to_nat node)) as [p|] eqn:Ep; [|apply nth_error_None in Ep; lia].
  destruct (readNode_body w P m HW small_fits (Z.to_nat node) b p Ep) as [e [G [R' [Hp Hm]]]].
  rewrite Z2Nat.id in R' by lia. rewrite R in R'. injection R' as ->. fold nc in Hp |- *.
  pose proof (body_length w) as BL. fold nc in BL. pose proof nc_pos as NP.
  destruct (Z.leb_spec e 0) as [L|L].
  - destruct (Z.eq_dec e 0) as [->|Ne]; [pose proof nc_small; lia|].
    destruct (wi_st _ _ _ HW _ _ (Hm ltac:(lia))) as [bb [s [_ [_ A]]]].
    pose proof (hi_lt _ _ (wi_h _ _ _ HW) _ _ A). lia.
  - destruct (Hp L). pose proof nc_small. lia.
Qed.

Lemma rs_reads : reads_like (rs_read_node (body w)) (body w) nc.
Proof.
  intros node b v Hn R. pose proof (node_small _ _ _ Hn R) as Hv. pose proof nc_small.
  unfold rs_read_node. rewrite chk32_ok by lia. cbn [bind]. rewrite chk32_ok by (destruct b; lia). cbn [bind].
  unfold readNode in R. destruct (zslice (body w) (node * 8 + (if b then 4 else 0)) _) as [s| | |]; cbn [bind] in *; try discriminate.
  assert (Z.of_N (val s) = v) as E by congruence. rewrite i32_ok by lia. congruence.
Qed.

Lemma j_reads : reads_like (j_read_node (body w)) (body w) nc.
Proof.
  intros node b v Hn R. pose proof (node_small _ _ _ Hn R) as Hv. pose proof nc_small.
  unfold j_read_node. rewrite (wrap32_ok (node * 8)) by lia.
  unfold readNode in R. set (off := node * 8 + (if b then 4 else 0)) in *.
  assert (0 <= off /\ off + 4 <= nc * 8) as Ho by (unfold off; destruct b; lia).
  rewrite (wrap32_ok off) by lia. rewrite (wrap32_ok (off + 1)), (wrap32_ok (off + 2)), (wrap32_ok (off + 3)) by lia.
  destruct (zslice (body w) off (off + 4)) as [s| | |] eqn:E; cbn [bind] in R; try discriminate.
  change 4 with (Z.of_nat 4) in E. destruct (zslice_len _ _ _ _ E) as [L _].
  destruct s as [|a [|b1 [|c [|d [|? ?]]]]]; try discriminate.
  pose proof (zslice_idx _ _ _ _ 0 a E eq_refl) as E0. pose proof (zslice_idx _ _ _ _ 1 b1 E eq_refl) as E1.
  pose proof (zslice_idx _ _ _ _ 2 c E eq_refl) as E2. pose proof (zslice_idx _ _ _ _ 3 d E eq_refl) as E3.
  change (Z.of_nat 0) with 0 in E0. change (Z.of_nat 1) with 1 in E1. change (Z.of_nat 2) with 2 in E2. change (Z.of_nat 3) with 3 in E3.
  rewrite Z.add_0_r in E0. rewrite E0, E1, E2, E3. cbn [bind].
  assert (Z.of_N (val [a; b1; c; d]) = v) as Ev by congruence. rewrite i32_ok by lia. congruence.
Qed.

(** A walk that ends at an inner node ends at the node of that path. *)
Lemma rwalk_inner bs : forall j p n k, nth_error P j = Some p -> rwalk (body w) nc bs (Z.of_nat j) = Ok (n, k) -> n < nc ->
  0 <= n /\ nth_error P (Z.to_nat n) = Some (p ++ bs).
Proof.
  pose proof (wi_t _ _ _ HW) as HT.
  induction bs as [|b bs IH]; intros j p n k Hj W L; cbn [rwalk] in W.
  - injection W as <- _. rewrite Nat2Z.id, app_nil_r. split; [lia|assumption].
  - destruct (Z.leb_spec nc (Z.of_nat j)) as [Lj|Lj]; [injection W as <- _; lia|].
    destruct (readNode_body w P m HW small_fits j b p Hj) as [e [G [R [Hp Hm]]]]. fold nc in R, Hp.
    rewrite R in W. cbn [bind] in W. destruct (Z.leb_spec e 0) as [Le|Le].
    + rewrite rwalk_done in W by lia. cbn [bind] in W. injection W as <- _. lia.
    + destruct (Hp Le) as [Hp1 Hp2].
      destruct (rwalk (body w) nc bs e) as [[n' k']| | |] eqn:W2; cbn [bind] in W; try discriminate. injection W as <- <-.
      rewrite <- (Z2Nat.id e) in W2 by lia. destruct (IH _ _ _ _ Hp1 W2 L) as [A B]. rewrite <- app_assoc in B. auto.
Qed.

(** A whole address always leads out of the tree. *)
Lemma rwalk_leaves a : (a < 2 ^ 128)%N ->
  exists n k, rwalk (body w) nc (abits a) 0 = Ok (n, k) /\
  match lookup m a with
  | Some (b, s) => exists off, assoc s (wHash w) = Some off /\ n = nc + off /\ nc < n
  | None => n = nc
  end.
Proof.
  intros Ha. destruct (rwalk_lookup w P m HW small_fits a Ha) as [n [k [W C]]]. fold nc in W, C.
  exists n, k. split; [assumption|]. destruct (lookup m a) as [[b s]|].
  - destruct C as [off [A [B [_ D]]]]. eauto.
  - destruct (Z.eq_dec n nc) as [|Ne]; [assumption|exfalso].
    destruct (rwalk_inner (abits a) 0 [] n k (ti_root _ _ (wi_t _ _ _ HW)) W ltac:(lia)) as [L0 Hn]. cbn [app] in Hn.
    assert (0 < Z.to_nat n)%nat as Ln.
    { destruct (Z.to_nat n) eqn:E; [|lia]. rewrite (ti_root _ _ (wi_t _ _ _ HW)) in Hn. injection Hn as Hn.
      assert (length (abits a) = 128%nat) as Q by (unfold abits; apply nbits_length). rewrite <- Hn in Q. discriminate. }
    destruct (wi_live _ _ _ HW _ _ Hn Ln) as [q [off [S Q]]].
    destruct (wi_st _ _ _ HW _ _ S) as [b [s [_ [-> _]]]].
    apply sprefix_prefix in Q as [_ Q]. unfold abits in Q. rewrite nbits_length, path_length in Q. lia.
Qed.

Lemma rwalk_leaves4 ip v4 k0 : length ip = 4%nat -> rwalk (body w) nc v4bits 0 = Ok (v4, k0) ->
  exists n k, rwalk (body w) nc (bits ip) v4 = Ok (n, k) /\
  match lookup m (addr ip) with
  | Some (b, s) => exists off, assoc s (wHash w) = Some off /\ n = nc + off /\ nc < n
  | None => n = nc
  end.
Proof.
  intros L W4. assert (valid_ip ip) as V by (left; assumption).
  destruct (rwalk_leaves (addr ip) (addr_bound ip V)) as [n [k [W C]]].
  rewrite abits_v4, <- v4bits_nbits in W by assumption. rewrite rwalk_app, W4 in W. cbn [bind] in W.
  destruct (rwalk (body w) nc (bits ip) v4) as [[n' k']| | |] eqn:W2; cbn [bind] in W; try discriminate.
  injection W as <- Ek. exists n', k'. split; [reflexivity|]. assumption.
Qed.

(** What is read at the place of an absent address: the end of the node table. *)
Lemma resolve_none g : rData g = body w -> rNodeCount g = nc -> rFileSize g >= Z.of_nat (length (body w)) -> nc < 65536 ->
  resolve g nc = Ok [].
Proof.
  intros Hd Hn Hf Hs. pose proof (body_length w) as BL. fold nc in BL. pose proof nc_pos as NP.
  unfold resolve. rewrite Hn, Hd. replace (nc - nc + nc * 8) with (nc * 8) by lia.
  replace (rFileSize g <=? nc * 8) with false by lia.
  assert (exists hd tl, body w = hd ++ [x00; x00] ++ tl /\ Z.of_nat (length hd) = nc * 8) as [hd [tl [E Lh]]].
  { destruct (be32_small nc ltac:(lia)) as [t Et].
    set (f := fun p : Z * Z => node_out nc (fst p) ++ node_out nc (snd p)).
    exists (flat_map f (wNode w)), (t ++ IntToBinaryBE nc 32 ++ wChunk w). split.
    - assert (body w = (flat_map f (wNode w) ++ IntToBinaryBE nc 32 ++ IntToBinaryBE nc 32) ++ wChunk w) as -> by reflexivity.
      rewrite Et at 1. rewrite <- !app_assoc. reflexivity.
    - rewrite flat_nodes_length; [unfold nc; lia|]. intros p. unfold f. rewrite app_length, !node_out_len. reflexivity. }
  rewrite E. rewrite zslice_app by (cbn [length]; lia). cbn [bind].
  change (Z.of_N (val [x00; x00])) with 0. rewrite <- E.
  replace (Z.of_nat (length (body w)) <? nc * 8 + 2 + 0) with false by lia.
  rewrite E. rewrite app_assoc. replace (tl) with ([] ++ tl) by reflexivity.
  rewrite zslice_app; [reflexivity|rewrite app_length; cbn [length]; lia|cbn [length]; lia].
Qed.
End Small.
